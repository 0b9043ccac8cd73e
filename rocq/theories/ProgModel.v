(** Programs over group elements: any sequence of calls of the methods of [Ed25519GroupElement] on elements that
    earlier calls returned.  The machine only keeps the program's variables; what a call does is given by [ops], once
    with the functions of [GroupModel] (here) and once with curve points ([ProgSpec]). *)
From Coq Require Import List ZArith.
From Verif Require Import GoBase FieldModel GroupModel ApiModel TextModel.
Import ListNotations.
Open Scope Z_scope.

(** The constants a program can start from: [ZERO_P2], [ZERO_P3] and [ZERO_PRECOMPUTED] (ed25519_encode.go:1939-1949) and
    [BASE_POINT] (:1935-1937). *)
Inductive constant : Set := KZeroP2 | KZeroP3 | KZeroPrecomputed | KBase.
Inductive binop : Set := OpAdd | OpSubtract | OpPrecomputedAdd | OpPrecomputedSubtract.
(** Calls; elements are given by the number of the variable that holds them. *)
Inductive instr : Set :=
| IConst (k : constant)
| IDecode (raw : bytes)
| ICopy (r : nat)
| ITo (r : nat) (c : csys)
| IDbl (r : nat)
| INegate (r : nat)
| IBin (o : binop) (r s : nat)
| ISelect (r : nat) (pos b : Z)
| IMul (r : nat) (a : bytes)
| IDoubleMul (r s : nat) (a b : bytes)
| IPrecompute (x : pcall) (r : nat)
| IEquals (r s : nat)
| IEncode (r : nat)
| ISatisfies (r : nat)
| IIsPrecomputed (r : nat).
(** What the program sees of a call: that it returned an element (which becomes the next variable), or returned nothing,
    a boolean, bytes, an error, or panicked. *)
Inductive reply : Set := RElem | RDone | RBool (b : bool) | RBytes (b : bytes) | RErr (e : err) | RPanic.

Record ops (E : Type) : Type := Ops {
  o_const : constant -> res E;
  o_decode : bytes -> res E;
  o_copy : E -> res E;
  o_to : E -> csys -> res E;
  o_dbl : E -> res E;
  o_negate : E -> res E;
  o_bin : binop -> E -> E -> res E;
  o_select : E -> Z -> Z -> res E;
  o_mul : E -> bytes -> res E;
  o_dmul : E -> E -> bytes -> bytes -> res E;
  o_precompute : pcall -> E -> res E;    (* the receiver afterwards *)
  o_equals : E -> E -> res bool;
  o_encode : E -> res bytes;
  o_satisfies : E -> res bool;
  o_is_precomputed : E -> bool }.
Arguments o_const {E}. Arguments o_decode {E}. Arguments o_copy {E}. Arguments o_to {E}. Arguments o_dbl {E}.
Arguments o_negate {E}. Arguments o_bin {E}. Arguments o_select {E}. Arguments o_mul {E}. Arguments o_dmul {E}.
Arguments o_precompute {E}. Arguments o_equals {E}. Arguments o_encode {E}. Arguments o_satisfies {E}. Arguments o_is_precomputed {E}.

Section Machine.
Context {E : Type} (calls : ops E).
Definition push (vs : list E) (r : res E) : list E * reply :=
  match r with Ok g => (vs ++ [g], RElem) | Err e => (vs, RErr e) | Panic => (vs, RPanic) end.
Definition observe {A} (f : A -> reply) (vs : list E) (r : res A) : list E * reply :=
  match r with Ok x => (vs, f x) | Err e => (vs, RErr e) | Panic => (vs, RPanic) end.
Fixpoint assign (vs : list E) (r : nat) (g : E) : list E :=
  match vs, r with [], _ => [] | _ :: vs', O => g :: vs' | v :: vs', S r' => v :: assign vs' r' g end.
Definition update (vs : list E) (r : nat) (x : res E) : list E * reply :=
  match x with Ok g => (assign vs r g, RDone) | Err e => (vs, RErr e) | Panic => (vs, RPanic) end.
(** a variable that was never assigned is a nil pointer: the call panics *)
Definition on (vs : list E) (r : nat) (f : E -> list E * reply) : list E * reply :=
  match nth_error vs r with Some g => f g | None => (vs, RPanic) end.
Definition exec (i : instr) (vs : list E) : list E * reply :=
  match i with
  | IConst k => push vs (o_const calls k)
  | IDecode raw => push vs (o_decode calls raw)
  | ICopy r => on vs r (fun g => push vs (o_copy calls g))
  | ITo r c => on vs r (fun g => push vs (o_to calls g c))
  | IDbl r => on vs r (fun g => push vs (o_dbl calls g))
  | INegate r => on vs r (fun g => push vs (o_negate calls g))
  | IBin o r s => on vs r (fun g => on vs s (fun h => push vs (o_bin calls o g h)))
  | ISelect r pos b => on vs r (fun g => push vs (o_select calls g pos b))
  | IMul r a => on vs r (fun g => push vs (o_mul calls g a))
  | IDoubleMul r s a b => on vs r (fun g => on vs s (fun h => push vs (o_dmul calls g h a b)))
  | IPrecompute x r => on vs r (fun g => update vs r (o_precompute calls x g))
  | IEquals r s => on vs r (fun g => on vs s (fun h => observe RBool vs (o_equals calls g h)))
  | IEncode r => on vs r (fun g => observe RBytes vs (o_encode calls g))
  | ISatisfies r => on vs r (fun g => observe RBool vs (o_satisfies calls g))
  | IIsPrecomputed r => on vs r (fun g => (vs, RBool (o_is_precomputed calls g)))
  end.
(** The replies to the calls of a program; a panic ends it. *)
Fixpoint replies (p : list instr) (vs : list E) : list reply :=
  match p with
  | [] => []
  | i :: p' => let (vs', o) := exec i vs in o :: match o with RPanic => [] | _ => replies p' vs' end
  end.
End Machine.

(** The calls of the library.  An element that a call returns has no tables, but for [copy] and [BASE_POINT].  Variables
    are values: what calls share ([Select] may return the table entry itself; [copy] shares entries and coordinates) is
    never written to, but for a precomputation of a table entry, which panics; sharing in general is the subject of C49. *)
Definition new_of (r : res gcore) : res ge := do c <- r; Ok (new_ge c).
Definition go_ops : ops ge := {|
  o_const := fun k => match k with
             | KZeroP2 => Ok (new_ge zero_P2) | KZeroP3 => Ok (new_ge zero_P3)
             | KZeroPrecomputed => Ok (new_ge zero_precomputed) | KBase => base_point end;
  (* NewEd25519EncodedGroupElement(raw) and Decode, ed25519_encode.go:1808-1831 *)
  o_decode := fun raw => new_of (do e <- new_ege raw; g_decode e);
  o_copy := g_copy;                                              (* ed25519_encode.go:2422-2444 *)
  o_to := fun g c => new_of (to_cs (core g) c);                  (* ed25519_encode.go:2354-2419 *)
  o_dbl := fun g => new_of (g_dbl (core g));                     (* ed25519_encode.go:2563-2582 *)
  o_negate := fun g => new_of (g_negate (core g));               (* ed25519_encode.go:2770-2777 *)
  o_bin := fun o g h => new_of (match o with
             | OpAdd => g_add (core g) (core h)                              (* ed25519_encode.go:2704-2733 *)
             | OpSubtract => g_subtract (core g) (core h)                    (* ed25519_encode.go:2743-2766 *)
             | OpPrecomputedAdd => g_precomputedAdd (core g) (core h)        (* ed25519_encode.go:2617-2649 *)
             | OpPrecomputedSubtract => g_precomputedSubtract (core g) (core h) (* ed25519_encode.go:2661-2683 *)
             end);
  o_select := fun g pos b => new_of (select_int g pos b);        (* ed25519_encode.go:2510-2533 *)
  o_mul := fun g a => new_of (g_scalarMultiply g a);             (* ed25519_encode.go:2801-2830 *)
  o_dmul := fun g h a b => new_of (g_doubleScalarMultiply g h a b);  (* ed25519_encode.go:2842-2880, receiver g *)
  o_precompute := fun x g => pstep g x;                          (* ed25519_encode.go:2447-2498 *)
  o_equals := fun g h => g_equals (core g) (core h);             (* ed25519_encode.go:2105-2150 *)
  o_encode := fun g => g_encode (core g);                        (* ed25519_encode.go:2308-2325 *)
  o_satisfies := fun g => g_satisfies (core g);                  (* ed25519_encode.go:2884-2898 *)
  o_is_precomputed := g_is_precomputed_double                    (* ed25519_encode.go:2301-2304 *)
|}.
