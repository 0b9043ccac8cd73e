(** Specification vocabulary for the encodings of keys and signatures. *)
From Verif Require Import GoBase FieldSpec.
Open Scope Z_scope.
(** ASCII codes of 0-9, a-f, A-F *)
Definition is_hex (c : Z) : Prop := 48 <= c <= 57 \/ 97 <= c <= 102 \/ 65 <= c <= 70.
(** two hexadecimal digits for each byte, high half first: ASCII "0123456789abcdef" and "0123456789ABCDEF" *)
Definition lower_digits : bytes := [48; 49; 50; 51; 52; 53; 54; 55; 56; 57; 97; 98; 99; 100; 101; 102].
Definition upper_digits : bytes := [48; 49; 50; 51; 52; 53; 54; 55; 56; 57; 65; 66; 67; 68; 69; 70].
Fixpoint hex_text (digits b : bytes) : bytes :=
  match b with
  | [] => []
  | x :: r => nth (Z.to_nat (x / 16)) digits 0 :: nth (Z.to_nat (x mod 16)) digits 0 :: hex_text digits r
  end.
(** ASCII lower case *)
Definition to_lower (s : bytes) : bytes := map (fun c => if (65 <=? c) && (c <=? 90) then c + 32 else c) s.
(** a "0" in front of a string of odd length *)
Definition even_hex (s : bytes) : bytes := if Nat.odd (length s) then 48 :: s else s.
(** without the leading zero bytes *)
Fixpoint strip (l : bytes) : bytes :=
  match l with 0 :: r => strip r | _ => l end.
