(** The part of NumPy's multi-dimensional arrays that the HDF5-based formats use: an array is its shape and its numbers with the last
    index running fastest (C order).  Simplification: no dtypes beyond integers and reals, no memory layout. *)
From Verif.Lib Require Import Base.

Record nda (A : Type) : Type := Nda { nd_shape : list nat; nd_flat : list A }.
Arguments Nda {A} _ _.
Arguments nd_shape {A} _.
Arguments nd_flat {A} _.
Definition size (s : list nat) : nat := fold_right Nat.mul 1 s.

Section Arrays.
Context {A : Type}.
(** The n rows of width w of a flat list *)
Definition rows_of (n w : nat) (l : list A) : list (list A) := map (fun i => slice (i * w) (i * w + w) l) (seq 0 n).
Definition column (j : nat) (m : list (list A)) : list A :=
  flat_map (fun r => match nth_error r j with Some x => [x] | None => [] end) m.
Definition transposed (w : nat) (m : list (list A)) : list (list A) := map (fun j => column j m) (seq 0 w).
(** From C order to the order with the first index running fastest (Fortran order), and back *)
Fixpoint to_f (s : list nat) (l : list A) : list A :=
  match s with
  | [] => l
  | n :: s' => concat (transposed (size s') (map (to_f s') (rows_of n (size s') l)))
  end.
Fixpoint of_f (s : list nat) (l : list A) : list A :=
  match s with
  | [] => l
  | n :: s' => concat (map (of_f s') (transposed n (rows_of (size s') n l)))
  end.
(** [a.flatten(order="F")] *)
Definition flatten_f (a : nda A) : nda A := Nda [length (nd_flat a)] (to_f (nd_shape a) (nd_flat a)).
(** [a.reshape(s, order="F")] *)
Definition reshape_f (s : list nat) (a : nda A) : result (nda A) :=
  if Nat.eqb (size s) (length (nd_flat a)) then Ok (Nda s (of_f s (to_f (nd_shape a) (nd_flat a)))) else Err ValueError.
(** [a.reshape] with the shape [s] followed by -1, order="F" *)
Definition reshape_f_rest (s : list nat) (a : nda A) : result (nda A) :=
  if Nat.eqb (size s) 0 then Err ValueError else
  reshape_f (s ++ [length (nd_flat a) / size s]) a.
(** [a.reshape(n, -1)] *)
Definition reshape_rest (n : nat) (a : nda A) : result (nda A) :=
  if Nat.eqb n 0 then Err ValueError else
  if Nat.eqb (n * (length (nd_flat a) / n)) (length (nd_flat a)) then Ok (Nda [n; length (nd_flat a) / n] (nd_flat a)) else Err ValueError.
(** A two-dimensional array and its rows; an array without rows has width 0 here. *)
Definition of_rows (m : list (list A)) : nda A := Nda [length m; match m with r :: _ => length r | [] => 0 end] (concat m).
Definition to_rows (a : nda A) : result (list (list A)) :=
  match nd_shape a with [n; w] => Ok (rows_of n w (nd_flat a)) | _ => Err ValueError end.
(** [len(a)] *)
Definition nd_len (a : nda A) : result nat := match nd_shape a with n :: _ => Ok n | [] => Err TypeError end.
(** [np.concatenate] of arrays with the same trailing dimensions *)
Definition nd_concat (l : list (nda A)) : result (nda A) :=
  match l with
  | [] => Err ValueError
  | a :: _ =>
      match nd_shape a with
      | [] => Err ValueError
      | _ :: s =>
          if forallb (fun b => match nd_shape b with _ :: s' => if list_eq_dec Nat.eq_dec s s' then true else false | [] => false end) l
          then Ok (Nda (sum_nat (map (fun b => hd 0 (nd_shape b)) l) :: s) (concat (map nd_flat l))) else Err ValueError
      end
  end.
(** [np.split(a, cs)] *)
Definition nd_split (cs : list nat) (a : nda A) : result (list (nda A)) :=
  match nd_shape a with
  | [] => Err IndexError
  | n :: s => Ok (map (fun m => Nda (length m :: s) (concat m)) (np_split cs (rows_of n (size s) (nd_flat a))))
  end.
End Arrays.

(** An array of integers or of reals *)
Inductive hval (F : Type) : Type := HInts (a : nda Z) | HReals (a : nda F).
Arguments HInts {F} _.
Arguments HReals {F} _.
Definition hv_shape {F} (v : hval F) : list nat := match v with HInts a => nd_shape a | HReals a => nd_shape a end.
Definition hv_map {F} (f : forall A, nda A -> result (nda A)) (v : hval F) : result (hval F) :=
  match v with HInts a => do b <- f Z a; Ok (HInts b) | HReals a => do b <- f F a; Ok (HReals b) end.
Definition hv_len {F} (v : hval F) : result nat := match v with HInts a => nd_len a | HReals a => nd_len a end.
Definition hv_flatten_f {F} (v : hval F) : hval F := match v with HInts a => HInts (flatten_f a) | HReals a => HReals (flatten_f a) end.
Definition hv_split {F} (cs : list nat) (v : hval F) : result (list (hval F)) :=
  match v with HInts a => do l <- nd_split cs a; Ok (map HInts l) | HReals a => do l <- nd_split cs a; Ok (map HReals l) end.
(** [np.concatenate].  Simplification: integers together with reals (turned into reals by NumPy) are refused. *)
Definition hv_concat {F} (l : list (hval F)) : result (hval F) :=
  match l with
  | HReals _ :: _ =>
      do xs <- mapM (fun v => match v with HReals a => Ok a | _ => Err TypeError end) l;
      do a <- nd_concat xs; Ok (HReals a)
  | _ =>
      do xs <- mapM (fun v => match v with HInts a => Ok a | _ => Err TypeError end) l;
      do a <- nd_concat xs; Ok (HInts a)
  end.

(** ** The checks of [Mesh.__init__] (src/meshio/_mesh.py:163-187) on arrays with a shape.  An entry None of cell data becomes a
    0-dimensional array, whose [len] raises TypeError. *)
Section Checks.
Context {F : Type}.
Fixpoint check_points (n : nat) (pd : dict (hval F)) : result unit :=
  match pd with
  | [] => Ok tt
  | (_, v) :: pd' => do k <- hv_len v; if Nat.eqb k n then check_points n pd' else Err ValueError
  end.
Fixpoint check_blocks (data : list (option (hval F))) (lens : list nat) : result unit :=
  match data, lens with
  | [], _ => Ok tt
  | None :: _, _ => Err TypeError
  | Some v :: data', n :: lens' => do k <- hv_len v; if Nat.eqb k n then check_blocks data' lens' else Err ValueError
  | Some _ :: _, [] => Err IndexError
  end.
Fixpoint check_cells (lens : list nat) (cd : dict (list (option (hval F)))) : result unit :=
  match cd with
  | [] => Ok tt
  | (_, data) :: cd' =>
      if Nat.eqb (length data) (length lens) then do _ <- check_blocks data lens; check_cells lens cd' else Err ValueError
  end.
End Checks.
