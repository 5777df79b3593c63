(** What the check of [meshio info] and the grouping of Exodus variables should do. *)
From Coq Require Import List ZArith String.
From Verif.Lib Require Import Base.
From Verif.Model Require Import Core Info Exodus.

(** A cell of the mesh refers to [i]. *)
Definition refers (bs : list block) (i : Z) : Prop :=
  exists b r, In b bs /\ In r (bdata b) /\ In i r.

(** A mesh of [n] points has the points 0 .. n-1. *)
Definition point_exists (n : nat) (i : Z) : Prop := (0 <= i < Z.of_nat n)%Z.

(** All variables listed in the outcome of the grouping, with repetitions. *)
Definition grouped_vars (c : cats) : list nat :=
  map snd (c_single c)
    ++ concat (map (fun g => match g with (_, i, j) => [i; j] end) (c_double c))
    ++ concat (map (fun g => match g with (_, i, j, k) => [i; j; k] end) (c_triple c)).

(** The names of the variables in a group are the stem with the right ending. *)
Definition groups_match (names : list string) (c : cats) : Prop :=
  (forall s i, In (s, i) (c_single c) -> nth_error names i = Some s) /\
  (forall s i j, In (s, i, j) (c_double c) ->
     nth_error names i = Some (s ++ "_R")%string /\ nth_error names j = Some (s ++ "_Z")%string) /\
  (forall s i j k, In (s, i, j, k) (c_triple c) ->
     nth_error names i = Some (s ++ "X")%string /\ nth_error names j = Some (s ++ "Y")%string /\
     nth_error names k = Some (s ++ "Z")%string).

(** Components come in the usual order, and no stem has both kinds of components. *)
Definition usual_order (names : list string) : Prop :=
  NoDup names /\
  (forall s i j k, nth_error names i = Some (s ++ "X")%string -> nth_error names j = Some (s ++ "Y")%string ->
     nth_error names k = Some (s ++ "Z")%string -> i < j /\ i < k) /\
  (forall s i j, nth_error names i = Some (s ++ "_R")%string -> nth_error names j = Some (s ++ "_Z")%string -> i < j) /\
  (forall s, In (s ++ "_R")%string names -> In (s ++ "_X")%string names -> In (s ++ "_Y")%string names -> False).
