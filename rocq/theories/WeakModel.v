(** Goroutines that call the methods of one group element, on a memory that promises next to nothing.

    The programs are those of [RaceModel].  There all goroutines see the loads and stores in one order; Go does not promise
    that for such racy programs.  Here a load returns nil, what the location held at first, or any value that any
    goroutine has stored there at any time before, also when the loading goroutine itself has stored another one since: the
    Go memory model allows no value of one word besides these.  The fields and the rows are slices, of several words, and a load may take the words
    from different stores: nil pointer and length of a table, or pointer of a table and length zero.  Compared to nil,
    asked for the length, or indexed, such a slice acts like nil, or like the table, or panics: so a load of a slice can
    also make the call panic.

    Simplification: what a stored pointer to a group element points to is seen complete (the coordinates are stored before
    the pointer, and nothing stores to them later). *)
From Coq Require Import List ZArith.
From Verif Require Import GoBase GroupModel RecoverModel RaceModel.
Import ListNotations.

(** All stores there were: ed25519_encode.go:2454 and :2485 to the two fields of the receiver, :2456 to a table, :2459 to a
    row, :2488 to a table for the double multiplication.  Tables and rows are numbers. *)
Inductive store : Set :=
| SSingle (t : nat) | SDouble (t : nat) | SRow (t i r : nat) | SEntry (r j : nat) (e : gcore) | SDEntry (t j : nat) (e : gcore).
(** No table, or row, has this number so far: a number enters a field or a table only when it is made. *)
Definition new_single (l : list store) (t : nat) : Prop := ~ In (SSingle t) l.
Definition new_double (l : list store) (t : nat) : Prop := ~ In (SDouble t) l.
Definition new_row (l : list store) (r : nat) : Prop := forall t i, ~ In (SRow t i r) l.

(** One step of a call. *)
Inductive wstep (l : list store) : act -> list store -> act -> Prop :=
| w_single t k : In (SSingle t) l -> wstep l (LoadS k) l (k (Some t))
| w_single_nil k : wstep l (LoadS k) l (k None)
| w_single_torn k t : In (SSingle t) l -> wstep l (LoadS k) l (Fin Panicked)
| w_double t k : In (SDouble t) l -> wstep l (LoadD k) l (k (Some t))
| w_double_nil k : wstep l (LoadD k) l (k None)
| w_double_torn k t : In (SDouble t) l -> wstep l (LoadD k) l (Fin Panicked)
| w_row t i r k : In (SRow t i r) l -> wstep l (LoadR t i k) l (k (Some r))
| w_row_nil t i k : wstep l (LoadR t i k) l (k None)
| w_row_torn t i r k : In (SRow t i r) l -> wstep l (LoadR t i k) l (Fin Panicked)
| w_entry r j e k : In (SEntry r j e) l -> wstep l (LoadE r j k) l (k (Some e))
| w_entry_nil r j k : wstep l (LoadE r j k) l (k None)
| w_new_single t k : new_single l t -> wstep l (NewS k) (SSingle t :: l) k
| w_new_double t k : new_double l t -> wstep l (NewD k) (SDouble t :: l) k
| w_new_row t i r k : new_row l r -> wstep l (NewR t i k) (SRow t i r :: l) k
| w_store r j e k : wstep l (StoreE r j e k) (SEntry r j e :: l) k
| w_store_double t j e k : wstep l (StoreDE t j e k) (SDEntry t j e :: l) k.

(** The calls with what is left of them and the number of steps they have done, and the machine on an element with
    coordinates c. *)
Record weak : Set := Weak { stores : list store; calls : list (call * act * nat) }.
Inductive wmove (c : gcore) : weak -> weak -> Prop :=
| wm_start l ts x : wmove c (Weak l ts) (Weak l (ts ++ [(x, program c x, 0%nat)]))
| wm_turn l ts ts' x a n l' a' : wstep l a l' a' -> wmove c (Weak l (ts ++ (x, a, n) :: ts')) (Weak l' (ts ++ (x, a', S n) :: ts')).
(** any number of moves *)
Inductive wmoves (c : gcore) (s : weak) : weak -> Prop :=
| wms_here : wmoves c s s
| wms_more s1 s2 : wmoves c s s1 -> wmove c s1 s2 -> wmoves c s s2.
Definition wblank : weak := Weak [] [].

(** [doubleScalarMultiplyVariableTime], ed25519_encode.go:2842-2880, on two elements (possibly the same one) while others
    precompute.  It stores nothing that others can reach, so it is not a program of the machine: what its loads can give
    is asked of the stores to the two elements.  Simplification: each of its loads may also see what is stored only later.

    A load of [A.precomputedForDouble[i]], :2860, :2862, or [ref.precomputedForDouble[i]], :2869, :2874: the field can be nil
    or torn, or i can be out of range (panic); the entry can be nil or any one that was ever stored there. *)
Inductive load_entry (l : list store) (i : Z) : res (option gcore) -> Prop :=
| le_panic : load_entry l i Panic
| le_nil t : In (SDouble t) l -> (0 <= i < 8)%Z -> load_entry l i (Ok None)
| le_entry t e : In (SDouble t) l -> (0 <= i < 8)%Z -> In (SDEntry t (Z.to_nat i) e) l -> load_entry l i (Ok (Some e)).
(** the two digits of one round, ed25519_encode.go:2857-2877; [r_prec_add] and [r_prec_sub] take a possibly nil entry *)
Inductive w_digit_a (l : list store) (ai : Z) (t : gcore) : res gcore -> Prop :=
| wa_pos x : (0 < ai)%Z -> load_entry l (Z.quot ai 2) x -> w_digit_a l ai t (do t3 <- to_P3 t; do e <- x; r_prec_sub t3 e)
| wa_neg x : (ai < 0)%Z -> load_entry l (Z.quot (w8 (- ai)) 2) x -> w_digit_a l ai t (do t3 <- to_P3 t; do e <- x; r_prec_add t3 e)
| wa_zero : ai = 0%Z -> w_digit_a l ai t (Ok t).
Inductive w_digit_b (l : list store) (bi : Z) (t : gcore) : res gcore -> Prop :=
| wb_pos x : (0 < bi)%Z -> load_entry l (Z.quot bi 2) x -> w_digit_b l bi t (do t3 <- to_P3 t; do e <- x; r_prec_add t3 e)
| wb_neg x : (bi < 0)%Z -> load_entry l (Z.quot (w8 (- bi)) 2) x -> w_digit_b l bi t (do t3 <- to_P3 t; do e <- x; r_prec_sub t3 e)
| wb_zero : bi = 0%Z -> w_digit_b l bi t (Ok t).
(** x can be the result of m when its value is given to f *)
Definition w_bind {A B} (m : res A -> Prop) (f : A -> res B -> Prop) (x : res B) : Prop :=
  exists y, m y /\ match y with Ok a => f a x | Err e => x = Err e | Panic => x = Panic end.
(** one round, ed25519_encode.go:2855-2877 *)
Definition w_dsm_step (lB lA : list store) (ai bi : Z) (r : gcore) : res gcore -> Prop :=
  w_bind (eq (g_dbl r)) (fun t => w_bind (w_digit_a lA ai t) (fun t => w_bind (w_digit_b lB bi t) (fun t => eq (to_P2 t)))).
(** the loop, ed25519_encode.go:2850-2878 *)
Fixpoint w_dsm_loop (lB lA : list store) (ds : list (Z * Z)) (flag : bool) (r : gcore) : res gcore -> Prop :=
  match ds with
  | [] => eq (Ok r)
  | (ai, bi) :: ds' =>
      let flag := flag || negb (ai =? 0)%Z || negb (bi =? 0)%Z in
      w_bind (if flag then w_dsm_step lB lA ai bi r else eq (Ok r)) (w_dsm_loop lB lA ds' flag)
  end.
Definition w_double_multiply (lB lA : list store) (a b : bytes) : res gcore -> Prop :=
  w_bind (eq (slide a)) (fun sa => w_bind (eq (slide b)) (fun sb => w_dsm_loop lB lA (rev (combine sa sb)) false zero_P2)).
