(** Goroutines that call the methods of one and the same group element.

    [PrecomputeForScalarMultiplication] and [PrecomputeForDoubleScalarMultiplication] take no lock: they look whether the
    table is there, store an empty one in the receiver and fill it afterwards, and they load the field of the receiver
    again at every access.  Here a call is a program whose steps are its loads and stores of memory that several
    goroutines can reach; between two steps of one goroutine the others can do any number of steps.

    Simplifications: every load and every store is one indivisible step, and all goroutines see them in one order (the Go
    memory model promises this only for programs without data races); the two lengths in the literal of [copy] are loaded
    in the order of the text; the entries that [copy] copies are thrown away by its callers, so reading them is left out.
    The coordinates of the element are never stored to and are parameters. *)
From Coq Require Import List ZArith Bool.
From Verif Require Import GoBase FieldModel GroupModel TextModel RecoverModel.
Import ListNotations.
Open Scope Z_scope.

(** What the goroutines share: the two fields of the receiver, ed25519_encode.go:2017-2032, nil or the number of a table;
    the tables, of 32 rows that are nil or the number of a row (:2454); the rows, of 8 entries (:2456); the tables for the
    double multiplication, of 8 entries (:2485). *)
Record mem : Set := Mem {
  m_single : option nat; m_double : option nat;
  tab : nat -> nat -> option nat; ntab : nat;
  row : nat -> nat -> option gcore; nrow : nat;
  dtab : nat -> nat -> option gcore; ndtab : nat }.
Definition blank : mem := Mem None None (fun _ _ => None) 0 (fun _ _ => None) 0 (fun _ _ => None) 0.
Definition put {A} (f : nat -> A) (n : nat) (a : A) : nat -> A := fun k => if Nat.eqb k n then a else f k.

(** What a call ends with. *)
Inductive outcome : Set := Returned | Answer (b : bool) | Result (x : rres gcore) | Panicked.
(** Programs. *)
Inductive act : Set :=
| Fin (o : outcome)
| LoadS (k : option nat -> act)                       (* ref.precomputedForSingle *)
| LoadD (k : option nat -> act)                       (* ref.precomputedForDouble *)
| NewS (k : act)                                      (* ref.precomputedForSingle = make([][]*Ed25519GroupElement, 32) *)
| NewD (k : act)                                      (* ref.precomputedForDouble = make([]*Ed25519GroupElement, 8) *)
| LoadR (t i : nat) (k : option nat -> act)           (* t[i] *)
| NewR (t i : nat) (k : act)                          (* t[i] = make([]*Ed25519GroupElement, 8) *)
| LoadE (r j : nat) (k : option gcore -> act)         (* r[j] *)
| StoreE (r j : nat) (e : gcore) (k : act)            (* r[j] = e *)
| StoreDE (t j : nat) (e : gcore) (k : act).          (* t[j] = e, in a table for the double multiplication *)
(** one step of a program *)
Definition act_step (m : mem) (a : act) : mem * act :=
  match a with
  | Fin o => (m, Fin o)
  | LoadS k => (m, k (m_single m))
  | LoadD k => (m, k (m_double m))
  | NewS k => (Mem (Some (ntab m)) (m_double m) (put (tab m) (ntab m) (fun _ => None)) (S (ntab m)) (row m) (nrow m) (dtab m) (ndtab m), k)
  | NewD k => (Mem (m_single m) (Some (ndtab m)) (tab m) (ntab m) (row m) (nrow m) (put (dtab m) (ndtab m) (fun _ => None)) (S (ndtab m)), k)
  | LoadR t i k => (m, k (tab m t i))
  | NewR t i k => (Mem (m_single m) (m_double m) (put (tab m) t (put (tab m t) i (Some (nrow m)))) (ntab m)
                       (put (row m) (nrow m) (fun _ => None)) (S (nrow m)) (dtab m) (ndtab m), k)
  | LoadE r j k => (m, k (row m r j))
  | StoreE r j e k => (Mem (m_single m) (m_double m) (tab m) (ntab m) (put (row m) r (put (row m r) j (Some e))) (nrow m) (dtab m) (ndtab m), k)
  | StoreDE t j e k => (Mem (m_single m) (m_double m) (tab m) (ntab m) (row m) (nrow m) (put (dtab m) t (put (dtab m t) j (Some e))) (ndtab m), k)
  end.

(** [copy], ed25519_encode.go:2422-2444: it makes room for as many rows and entries as it sees first (:2429-2430) and
    copies as many as it sees later (:2432, :2439); it panics if there are more. *)
Definition p_copy (k : act) : act :=
  LoadS (fun s => LoadD (fun d => LoadS (fun s' =>
    match s, s' with
    | None, Some _ => Fin Panicked
    | _, _ => LoadD (fun d' => match d, d' with None, Some _ => Fin Panicked | _, _ => k end)
    end))).
(** the loop over j, ed25519_encode.go:2458-2468; [m] rounds left *)
Fixpoint p_cols (m i j : nat) (Bi Bij : gcore) (next : act) : act :=
  match m with
  | O => next
  | S m' =>
      LoadS (fun f => match f with
      | None => Fin Panicked
      | Some t => LoadR t i (fun f => match f with
        | None => Fin Panicked
        | Some r => StoreE r j (prec_entry Bij)
            match add_P3 Bij Bi with Ok Bij' => p_cols m' i (S j) Bi Bij' next | _ => Fin Panicked end
        end)
      end)
  end.
(** the loop over i, ed25519_encode.go:2455-2474; [n] rounds left.  A row that is nil when the loop over j begins gives
    no round of it. *)
Fixpoint p_rows (n i : nat) (Bi : gcore) : act :=
  match n with
  | O => Fin Returned
  | S n' =>
      let next := match dbl_n 8 Bi with Ok Bi' => p_rows n' (S i) Bi' | _ => Fin Panicked end in
      LoadS (fun f => match f with
      | None => Fin Panicked
      | Some t => NewR t i (
          LoadS (fun f => match f with
          | None => Fin Panicked
          | Some t => LoadR t i (fun f => match f with None => next | Some _ => p_cols 8 i 0 Bi Bi next end)
          end))
      end)
  end.
(** [PrecomputeForScalarMultiplication], ed25519_encode.go:2447-2476. *)
Definition p_single (c : gcore) : act :=
  LoadS (fun f => match f with
  | Some _ => Fin Returned
  | None => LoadS (fun f => match f with
    | Some _ => Fin Returned
    | None => p_copy (NewS (LoadS (fun f => match f with None => Fin Returned | Some _ => p_rows 32 0 c end)))
    end)
  end).
(** the loop of [PrecomputeForDoubleScalarMultiplication], ed25519_encode.go:2487-2497; [m] rounds left *)
Fixpoint p_dcols (m j : nat) (c Bi : gcore) : act :=
  match m with
  | O => Fin Returned
  | S m' =>
      LoadD (fun f => match f with
      | None => Fin Panicked
      | Some t => StoreDE t j (prec_entry Bi)
          match (do s <- add_P3 c Bi; add_P3 c s) with Ok Bi' => p_dcols m' (S j) c Bi' | _ => Fin Panicked end
      end)
  end.
(** [PrecomputeForDoubleScalarMultiplication], ed25519_encode.go:2479-2498. *)
Definition p_double (c : gcore) : act :=
  LoadD (fun f => match f with
  | Some _ => Fin Returned
  | None => NewD (p_copy (LoadD (fun f => match f with None => Fin Returned | Some _ => p_dcols 8 0 c c end)))
  end).
(** [IsPrecomputedForDoubleScalarMultiplication], ed25519_encode.go:2301-2304. *)
Definition p_is_double : act := LoadD (fun f => Fin (Answer (match f with None => false | Some _ => true end))).

(** the loop of [Select], ed25519_encode.go:2518-2526: the row is loaded once, its entries one by one; [n] rounds left *)
Fixpoint p_select_loop (n j r : nat) (bAbs : Z) (t : gcore) (k : rres gcore -> act) : act :=
  match n with
  | O => k (ROk t)
  | S n' => LoadE r j (fun el => match r_cmov t el (byte_eq_int bAbs (Z.of_nat j + 1)) with
                                 | ROk t' => p_select_loop n' (S j) r bAbs t' k
                                 | x => k x
                                 end)
  end.
(** [Select], ed25519_encode.go:2510-2533, and what the caller does with the result. *)
Definition p_select (pos b : Z) (k : rres gcore -> act) : act :=
  let bNegative := is_negative_ct b in
  let bAbs := w64 (b - w64 (Z.land (- bNegative) b * 2)) in
  let last x := k (rbind x (fun t => of_plain (g_cmov t (newPrecomputed (gY t) (gX t) (fe_neg (gZ t))) bNegative))) in
  LoadS (fun f => match f with
  | None => k RPanic
  | Some t =>
      if (pos <? 0) || (32 <=? pos) then k RPanic
      else LoadR t (Z.to_nat pos) (fun f => match f with
        | None => last (ROk zero_precomputed)
        | Some r => p_select_loop 8 0 r bAbs zero_precomputed last
        end)
  end).
(** [scalarMultiply], ed25519_encode.go:2801-2830. *)
Fixpoint p_sm_loop (e : list Z) (is : list nat) (h : gcore) (k : rres gcore -> act) : act :=
  match is with
  | [] => k (ROk h)
  | i :: r => p_select (Z.of_nat (i / 2)) (nth i e 0) (fun s =>
      match rbind s (fun s => of_plain (do t <- g_precomputedAdd h s; to_P3 t)) with
      | ROk h' => p_sm_loop e r h' k
      | x => k x
      end)
  end.
Definition p_scalar_multiply (a : bytes) : act :=
  match to_radix16 a with
  | Ok e =>
      p_sm_loop e (map (fun k => 2 * k + 1)%nat (seq 0 32)) zero_P3 (fun x =>
      match rbind x (fun h => of_plain (do d1 <- g_dbl h; do h1 <- to_P2 d1; do d2 <- g_dbl h1; do h2 <- to_P2 d2;
                                        do d3 <- g_dbl h2; do h3 <- to_P2 d3; do d4 <- g_dbl h3; to_P3 d4)) with
      | ROk h4 => p_sm_loop e (map (fun k => 2 * k)%nat (seq 0 32)) h4 (fun x => Fin (Result x))
      | x => Fin (Result x)
      end)
  | x => Fin (Result (rbind (of_plain x) (fun _ => RPanic)))
  end.

(** The calls, and the machine: a history starts calls and gives turns to those that were started, in any order. *)
Inductive call : Set := CSingle | CDouble | CIsDouble | CSelect (pos b : Z) | CMultiply (a : bytes).
Definition program (c : gcore) (x : call) : act :=
  match x with
  | CSingle => p_single c
  | CDouble => p_double c
  | CIsDouble => p_is_double
  | CSelect pos b => p_select pos b (fun r => Fin (Result r))
  | CMultiply a => p_scalar_multiply a
  end.
Inductive event : Set := Start (x : call) | Turn (n : nat).
Record machine : Set := Machine { memory : mem; threads : list (call * act) }.
Fixpoint set_nth {A} (l : list A) (n : nat) (a : A) : list A :=
  match l, n with [], _ => [] | _ :: r, O => a :: r | x :: r, S k => x :: set_nth r k a end.
Definition m_step (c : gcore) (s : machine) (e : event) : machine :=
  match e with
  | Start x => Machine (memory s) (threads s ++ [(x, program c x)])
  | Turn n =>
      match nth_error (threads s) n with
      | None => s
      | Some (x, a) => let (m, a') := act_step (memory s) a in Machine m (set_nth (threads s) n (x, a'))
      end
  end.
Definition m_run (c : gcore) (s : machine) (h : list event) : machine := fold_left (m_step c) h s.
(** a new element with coordinates c and the calls of a history on it *)
Definition race (c : gcore) (h : list event) : machine := m_run c (Machine blank []) h.

(** The element as it stands in memory. *)
Definition seen (c : gcore) (m : mem) : rge :=
  RGe c
    (option_map (fun t => map (fun i => match tab m t i with None => [] | Some r => map (row m r) (seq 0 8) end) (seq 0 32)) (m_single m))
    (option_map (fun t => map (dtab m t) (seq 0 8)) (m_double m)).
