(** Specification vocabulary of C62 - C65. *)
From Coq Require Import List ZArith Bool String.
From Verif Require Import GoBase FieldModel FieldSpec GroupModel Fp Curve GroupSpec ApiModel CodecSpec TextModel.
Import ListNotations.
Open Scope Z_scope.

(** 64 hexadecimal digits of an integer, least significant byte first *)
Definition hex32 (v : Z) : bytes := hex_text lower_digits (le_bytes 32 v).
(** the text of a point: its affine coordinates *)
Definition point_text (P : point) : bytes :=
  lit "x=" ++ hex32 (val (px P)) ++ [10] ++ lit "y=" ++ hex32 (val (py P)) ++ [10].

(** the integer in -256 .. 255 that is congruent to b modulo 512; what [Select] makes of it *)
Definition residue (b : Z) : Z := (b + 256) mod 512 - 256.
Definition digit (b : Z) : Z := if Z.abs (residue b) <=? 8 then residue b else 0.

(** What each call of a BufferedBlockCipher answers. *)
Inductive answers : bcall -> breply -> Prop :=
| A_size n : answers (BSize n) (RInt 0)
| A_reset : answers BReset RNone
| A_init e k iv : answers (BInit e k iv) RNone
| A_final out off : answers (BFinal out off) (RFinal 0 out)
| A_short input inOff len out off : Z.of_nat (length out) < w64 (len - inOff) ->
    answers (BProcess input inOff len out off) (RProcess (-1) input out)
| A_process input inOff len out off input' : w64 (len - inOff) <= Z.of_nat (length out) ->
    length input' = length input ->
    (forall i, (i < length input)%nat ->
       nth i input' 0 = if Nat.ltb i (length out) then nth i out 0 else nth i input 0) ->
    answers (BProcess input inOff len out off)
      (RProcess (Z.min (Z.of_nat (length input)) (Z.of_nat (length out))) input' out).
