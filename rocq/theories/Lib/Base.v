(** Generic vocabulary: results, Python dictionaries, list utilities.
    Nothing in this file is specific to meshio; it fixes how Python/numpy
    constructs are represented in the model. *)
From Coq Require Export String Ascii.
From Coq Require Export List Arith ZArith Lia Bool.
Export ListNotations.
Global Open Scope string_scope.
Global Open Scope list_scope.

(** Python exception classes that the modelled code can raise. *)
Inductive exn : Set :=
| ReadError | WriteError | KeyError | IndexError | ValueError | TypeError
| AssertionError | AttributeError | RuntimeError | StopIteration | SystemExit
| UnboundLocalError | OverflowError | UnicodeError | OSError | OutOfFuel.

(** Outcome of a Python call: a value or a raised exception. *)
Inductive result (A : Type) : Type :=
| Ok (a : A)
| Err (e : exn).
Arguments Ok {A} a.
Arguments Err {A} e.

Definition bind {A B} (r : result A) (f : A -> result B) : result B :=
  match r with Ok a => f a | Err e => Err e end.
Notation "'do' x <- r ; k" := (bind r (fun x => k))
  (at level 200, x pattern, r at level 100, k at level 200).

Definition of_option {A} (e : exn) (o : option A) : result A :=
  match o with Some a => Ok a | None => Err e end.

Definition is_ok {A} (r : result A) : bool :=
  match r with Ok _ => true | Err _ => false end.

(** [for x in l: ...] collecting results; stops at the first exception. *)
Fixpoint mapM {A B} (f : A -> result B) (l : list A) : result (list B) :=
  match l with
  | [] => Ok []
  | x :: xs => do y <- f x; do ys <- mapM f xs; Ok (y :: ys)
  end.

Fixpoint mapO {A B} (f : A -> option B) (l : list A) : option (list B) :=
  match l with
  | [] => Some []
  | x :: xs => match f x, mapO f xs with
               | Some y, Some ys => Some (y :: ys)
               | _, _ => None
               end
  end.

(** ** Python dictionaries with string keys, in insertion order. *)
Definition dict (V : Type) : Type := list (string * V).

Fixpoint dget {V} (k : string) (d : dict V) : option V :=
  match d with
  | [] => None
  | (k', v) :: d' => if String.eqb k k' then Some v else dget k d'
  end.

(** [d[k] = v]: an existing key keeps its position, a new one goes last. *)
Fixpoint dset {V} (k : string) (v : V) (d : dict V) : dict V :=
  match d with
  | [] => [(k, v)]
  | (k', v') :: d' => if String.eqb k k' then (k', v) :: d' else (k', v') :: dset k v d'
  end.

(** [del d[k]] / [d.pop(k)] for a present key; identity otherwise. *)
Fixpoint ddel {V} (k : string) (d : dict V) : dict V :=
  match d with
  | [] => []
  | (k', v') :: d' => if String.eqb k k' then d' else (k', v') :: ddel k d'
  end.

Definition dmem {V} (k : string) (d : dict V) : bool :=
  match dget k d with Some _ => true | None => false end.

Definition dkeys {V} (d : dict V) : list string := map fst d.
Definition dvals {V} (d : dict V) : list V := map snd d.

(** [d.update(e)] *)
Definition dupdate {V} (d e : dict V) : dict V :=
  fold_left (fun acc kv => dset (fst kv) (snd kv) acc) e d.

(** [k in list] for strings *)
Definition smem (k : string) (l : list string) : bool := existsb (String.eqb k) l.

(** ** Integer-keyed dictionaries *)
Definition zdict (V : Type) : Type := list (Z * V).
Fixpoint zget {V} (k : Z) (d : zdict V) : option V :=
  match d with
  | [] => None
  | (k', v) :: d' => if Z.eqb k k' then Some v else zget k d'
  end.
Fixpoint zset {V} (k : Z) (v : V) (d : zdict V) : zdict V :=
  match d with
  | [] => [(k, v)]
  | (k', v') :: d' => if Z.eqb k k' then (k', v) :: d' else (k', v') :: zset k v d'
  end.

(** ** List utilities *)

(** Replace position [n]; identity when out of range (callers check). *)
Fixpoint upd {A} (n : nat) (v : A) (l : list A) : list A :=
  match l, n with
  | [], _ => []
  | _ :: xs, O => v :: xs
  | x :: xs, S m => x :: upd m v xs
  end.

(** [a[idx] = v] for a list of in-range indices. *)
Definition scatter {A} (idx : list nat) (v : A) (l : list A) : list A :=
  fold_left (fun acc i => upd i v acc) idx l.

(** Index list [i, i+1, ..., ] paired with elements. *)
Definition enumerate {A} (l : list A) : list (nat * A) := combine (seq 0 (length l)) l.

(** [row[perm]] numpy fancy indexing with nonnegative constants. *)
Definition permute {A} (perm : list nat) (row : list A) : option (list A) :=
  mapO (fun i => nth_error row i) perm.

(** Consecutive pieces of the given lengths. *)
Fixpoint split_lens {A} (lens : list nat) (l : list A) : list (list A) :=
  match lens with
  | [] => []
  | n :: ns => firstn n l :: split_lens ns (skipn n l)
  end.

(** [np.cumsum] *)
Fixpoint cumsum_from (acc : nat) (l : list nat) : list nat :=
  match l with
  | [] => []
  | x :: xs => (acc + x) :: cumsum_from (acc + x) xs
  end.
Definition cumsum (l : list nat) : list nat := cumsum_from 0 l.

(** [l[:-1]] *)
Definition butlast {A} (l : list A) : list A := removelast l.

(** Python slice [l[a:b]] for 0 <= a, 0 <= b. *)
Definition slice {A} (a b : nat) (l : list A) : list A := firstn (b - a) (skipn a l).

(** [np.split(a, points)] *)
Fixpoint np_split_from {A} (start : nat) (points : list nat) (l : list A) : list (list A) :=
  match points with
  | [] => [skipn start l]
  | p :: ps => slice start p l :: np_split_from p ps l
  end.
Definition np_split {A} (points : list nat) (l : list A) : list (list A) :=
  np_split_from 0 points l.

(** Positions at which a boolean predicate holds: [np.where(...)[0]] *)
Fixpoint where_from {A} (f : A -> bool) (i : nat) (l : list A) : list nat :=
  match l with
  | [] => []
  | x :: xs => if f x then i :: where_from f (S i) xs else where_from f (S i) xs
  end.
Definition where_ {A} (f : A -> bool) (l : list A) : list nat := where_from f 0 l.

(** Sorted duplicate-free list: [np.unique] on integers. *)
Fixpoint zinsert (x : Z) (l : list Z) : list Z :=
  match l with
  | [] => [x]
  | y :: ys => if Z.ltb x y then x :: y :: ys
               else if Z.eqb x y then y :: ys
               else y :: zinsert x ys
  end.
Definition zunique (l : list Z) : list Z := fold_right zinsert [] l.

(** Sublists of length [n] ([n > 0]); the last one may be shorter. *)
Fixpoint chunks_fuel {A} (fuel n : nat) (l : list A) : list (list A) :=
  match fuel with
  | O => []
  | S f => match l with
           | [] => []
           | _ => firstn n l :: chunks_fuel f n (skipn n l)
           end
  end.
Definition chunks {A} (n : nat) (l : list A) : list (list A) := chunks_fuel (length l) n l.

Fixpoint sum_nat (l : list nat) : nat :=
  match l with [] => 0 | x :: xs => x + sum_nat xs end.
