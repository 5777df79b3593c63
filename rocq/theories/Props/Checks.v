(** C53 and C61: Exodus files.  C56: the check of [meshio info]. *)
From Coq Require Import Permutation.
From Verif.Lib Require Import Base Facts Text.
From Verif.Model Require Import Core Info Abaqus Exodus.
From Verif.Spec Require Import Core Info Exodus.
From Verif.Proofs Require Import Info Exodus ExodusFile.

(** ** C53: grouping of the variables of an Exodus file *)

(** Every variable is in some group, nothing else is, and the members of a group have the stem of the group
    with the endings of their components; the order of the names does not matter. *)
Theorem C53_covers (names : list string) : ~ In ""%string names ->
  exists c, categorize names = Ok c /\ groups_match names c /\
    forall j, In j (grouped_vars c) <-> j < length names.
Proof. apply categorize_covers. Qed.
Print Assumptions C53_covers.

(** If the components come in the usual order, every variable is used exactly once, and the groups are exactly
    the pairs _R, _Z and the triples X, Y, Z that there are. *)
Theorem C53_exactly_once_partial (names : list string) : usual_order names -> ~ In ""%string names ->
  exists c, categorize names = Ok c /\ Permutation (grouped_vars c) (seq 0 (length names)) /\
    (forall s i j, In (s, i, j) (c_double c) <->
       nth_error names i = Some (s ++ "_R")%string /\ nth_error names j = Some (s ++ "_Z")%string) /\
    (forall s i j k, In (s, i, j, k) (c_triple c) <->
       nth_error names i = Some (s ++ "X")%string /\ nth_error names j = Some (s ++ "Y")%string /\
       nth_error names k = Some (s ++ "Z")%string).
Proof. apply categorize_once. Qed.
Print Assumptions C53_exactly_once_partial.

(** An empty name stops the reader with an IndexError. *)
Theorem C53_empty_name (names : list string) : In ""%string names -> categorize names = Err IndexError.
Proof. apply categorize_empty. Qed.
Print Assumptions C53_empty_name.

(** In another order a variable can be used twice: Y comes first and is a group of its own. *)
Theorem C53_order_refuted : exists names c, NoDup names /\ ~ In ""%string names /\ categorize names = Ok c /\
  ~ NoDup (grouped_vars c) /\ In ("vY"%string, 1) (c_single c) /\ In ("v"%string, 2, 1, 3) (c_triple c).
Proof.
  exists ["p"; "vY"; "vX"; "vZ"]%string. eexists. split; [repeat constructor; cbn; intuition discriminate|].
  split; [cbn; intuition discriminate|]. split; [vm_compute; reflexivity|]. split; [|split; cbn; auto].
  intros H. cbn in H. apply NoDup_cons_iff in H as [_ H]. apply NoDup_cons_iff in H as [H _]. apply H. cbn. auto.
Qed.
Print Assumptions C53_order_refuted.
(** A component in the first place is not found at all: three components, three single variables. *)
Theorem C53_first_refuted : exists names, Permutation names ["vX"; "vY"; "vZ"]%string /\
  categorize names = Ok (Cats [("vY", 0); ("vX", 1); ("vZ", 2)]%string [] [] [true; true; true]).
Proof. exists ["vY"; "vX"; "vZ"]%string. split; [apply perm_swap|vm_compute; reflexivity]. Qed.
Print Assumptions C53_first_refuted.

Example C53_example :
  let names := ["p"; "vX"; "vY"; "vZ"; "d_R"; "d_Z"; "wX"; "X"]%string in
  ~ In ""%string names /\
  categorize names = Ok (Cats [("p", 0); ("wX", 6); ("X", 7)]%string [("d"%string, 4, 5)] [("v"%string, 1, 2, 3)] (repeat true 8)).
Proof. split; [cbn; intuition discriminate|vm_compute; reflexivity]. Qed.
Example C53_example_order : usual_order ["vX"; "vY"; "vZ"]%string.
Proof.
  split; [repeat constructor; cbn; intuition discriminate|]. split; [|split].
  - assert (A : forall s c k x, nth_error ["vX"; "vY"; "vZ"]%string k = Some x -> x = (s ++ String c "")%string -> s = "v"%string /\
      c = nth k ["X"; "Y"; "Z"]%char c).
    { intros s c k x H ->. destruct k as [|[|[|[|k]]]]; cbn in H; try discriminate; injection H as H;
        (destruct s as [|a [|b s]]; cbn in H; [discriminate| |injection H as -> H; destruct s; discriminate]); injection H as -> ->; auto. }
    intros s i j k Hi Hj Hk. destruct (A _ _ _ _ Hi eq_refl) as [-> Ei], (A _ _ _ _ Hj eq_refl) as [_ Ej], (A _ _ _ _ Hk eq_refl) as [_ Ek].
    destruct i as [|[|[|[|i]]]]; cbn in Ei, Hi; try discriminate. destruct j as [|[|[|[|j]]]], k as [|[|[|[|k]]]]; cbn in Ej, Ek, Hj, Hk; try discriminate; lia.
  - intros s i j H _. exfalso. destruct i as [|[|[|[|i]]]]; cbn in H; try discriminate; injection H as H; destruct s as [|a [|b [|d s]]]; cbn in H; discriminate.
  - intros s H _ _. destruct H as [H|[H|[H|[]]]]; destruct s as [|a [|b [|d s]]]; cbn in H; discriminate.
Qed.

(** ** C56: the check of a mesh *)

(** Exact behaviour for a mesh of [n] points: an index above [n] is reported; otherwise the index [n], and indices below [-n], stop
    the program; otherwise, with negative indices counted from the end, the warning about unused points is printed exactly if there are some. *)
Theorem C56_behaviour (n : nat) (bs : list block) :
  ((exists i, refers bs i /\ (Z.of_nat n < i)%Z) -> info_check n bs = Ok [Inconsistent]) /\
  ((forall i, refers bs i -> (i <= Z.of_nat n)%Z) -> (exists i, refers bs i /\ (i = Z.of_nat n \/ i < - Z.of_nat n)%Z) ->
     info_check n bs = Err IndexError) /\
  ((forall i, refers bs i -> (- Z.of_nat n <= i < Z.of_nat n)%Z) ->
     exists w, info_check n bs = Ok w /\ ~ In Inconsistent w /\
       (In UnusedPoints w <-> exists p, p < n /\ forall i, refers bs i -> i <> Z.of_nat p /\ i <> (Z.of_nat p - Z.of_nat n)%Z)).
Proof.
  split; [|split].
  - intros (i & Hi & L). unfold info_check. destruct (info_consistent n bs) eqn:E; [|reflexivity].
    apply consistent_spec with (i := i) in E; auto. lia.
  - intros H (i & Hi & L). unfold info_check. rewrite (proj2 (consistent_spec n bs) H).
    rewrite (mark_blocks_err n bs (repeat false n) i); auto using repeat_length. lia.
  - intros H. destruct (info_ok n bs H) as (w & E & N & U). exists w. split; [exact E|]. split; [exact N|]. rewrite U.
    split; intros (p & L & X); exists p; split; auto; intros i Hi; specialize (X i Hi); specialize (H i Hi); unfold pos_of in *;
      destruct (Z.ltb_spec i 0); lia.
Qed.
Print Assumptions C56_behaviour.

(** The property, for meshes whose cells use no negative index and not the index [n]. *)
Theorem C56_check_partial (n : nat) (bs : list block) :
  (forall i, refers bs i -> (0 <= i)%Z /\ i <> Z.of_nat n) ->
  exists w, info_check n bs = Ok w /\
    (In Inconsistent w <-> exists i, refers bs i /\ ~ point_exists n i) /\
    ((forall i, refers bs i -> point_exists n i) ->
       (In UnusedPoints w <-> exists p, p < n /\ ~ refers bs (Z.of_nat p))).
Proof.
  intros H. destruct (C56_behaviour n bs) as (A & _ & C). unfold point_exists.
  destruct (info_consistent n bs) eqn:E.
  - pose proof (proj1 (consistent_spec n bs) E) as L.
    destruct C as (w & Ew & N & U). { intros i Hi. specialize (L i Hi). specialize (H i Hi). lia. }
    exists w. split; [exact Ew|]. split.
    + split; [easy|]. intros (i & Hi & X). specialize (L i Hi). specialize (H i Hi). lia.
    + intros P. rewrite U. split; intros (p & Hp & X); exists p; split; auto.
      * intros R. now apply X in R.
      * intros i Hi. specialize (P i Hi). split; [intros ->; auto|lia].
  - assert (X : exists i, refers bs i /\ (Z.of_nat n < i)%Z).
    { unfold info_consistent in E. apply Bool.negb_false_iff in E. apply existsb_exists in E as (b & Hb & E). apply existsb_exists in E as (i & Hi & E).
      exists i. split; [apply refers_concat; eauto|now apply Z.ltb_lt]. }
    exists [Inconsistent]. split; [auto|]. destruct X as (i & Hi & Li). split.
    + split; [|now left]. intros _. exists i. split; auto. lia.
    + intros P. apply P in Hi. lia.
Qed.
Print Assumptions C56_check_partial.

(** Not so if a cell refers to the point after the last one: an exception instead of the report. *)
Theorem C56_boundary_refuted : exists n bs i, refers bs i /\ ~ point_exists n i /\ info_check n bs = Err IndexError.
Proof.
  exists 3, [Block "triangle" [[0; 1; 3]]]%Z, 3%Z. split; [|split; [unfold point_exists; cbn; lia|vm_compute; reflexivity]].
  eexists _, _. split; [now left|]. split; [now left|]. cbn. auto.
Qed.
Print Assumptions C56_boundary_refuted.
(** Nor for negative numbers, which are taken from the end: nothing is reported. *)
Theorem C56_negative_refuted : exists n bs i, refers bs i /\ ~ point_exists n i /\ info_check n bs = Ok [].
Proof.
  exists 3, [Block "triangle" [[0; 1; -1]]]%Z, (-1)%Z. split; [|split; [unfold point_exists; cbn; lia|vm_compute; reflexivity]].
  eexists _, _. split; [now left|]. split; [now left|]. cbn. auto.
Qed.
Print Assumptions C56_negative_refuted.

Example C56_example :
  let bs := [Block "line" [[0; 1]]; Block "triangle" [[0; 1; 3]]]%Z in
  (forall i, refers bs i -> (0 <= i)%Z /\ i <> Z.of_nat 4) /\ info_check 4 bs = Ok [UnusedPoints] /\ info_check 2 bs = Ok [Inconsistent].
Proof.
  split; [|split; vm_compute; reflexivity]. intros i (b & r & Hb & Hr & Hi).
  cbn in Hb. destruct Hb as [<-|[<-|[]]]; cbn in Hr; destruct Hr as [<-|[]]; cbn in Hi; intuition lia.
Qed.

(** ** C61: Exodus files *)

(** Points, blocks, point data (of any width) and point sets come back, unless some names of the point data look like components. *)
Theorem C61_roundtrip_partial (F : Type) (zero : F) (m : ex_in F) :
  exodus_mesh m -> no_components (dkeys (ei_pd m)) ->
  exists f, write_exodus zero m = Ok f /\
    read_exodus zero f = Ok (ExOut (ei_points m) (ei_cells m) (ei_pd m) [] (ei_sets m)).
Proof. apply roundtrip. Qed.
Print Assumptions C61_roundtrip_partial.

(** Element variables given for all blocks come back as cell data, block by block. *)
Theorem C61_read_elements (F : Type) (zero : F) n coords (conns : list (string * list cell)) tys names vals :
  Forall2 (fun tr ty => dget (upper (fst tr)) exodus_to_meshio_type = Some ty /\ In ty exodus_types) conns tys ->
  conns <> [] -> NoDup names -> length vals = length names ->
  Forall (fun v => Forall2 (fun c x => length x = length (snd c)) conns v) vals ->
  read_exodus zero (Nc n (("coord"%string, NcMat coords) :: conn_vars conns ++ ("name_elem_var"%string, NcNames names) :: elem_vars vals))
  = Ok (ExOut (transpose zero n coords)
         (map (fun tr => Block (fst tr) (map (map (fun i => (i - 1)%Z)) (snd tr))) (combine tys (map snd conns)))
         [] (combine names vals) []).
Proof. apply read_elements. Qed.
Print Assumptions C61_read_elements.

Example C61_example :
  let m := ExIn 3 [[0; 0; 0]; [1; 0; 0]; [0; 1; 0]; [0; 0; 1]]%Z [Block "triangle" [[0; 1; 2]]; Block "tetra" [[0; 1; 2; 3]]; Block "triangle" [[1; 2; 3]]]%Z
             [("u", P1 [1; 2; 3; 4]); ("v", P2 [[1; 2]; [3; 4]; [5; 6]; [7; 8]]); ("wX", P1 [0; 0; 0; 0])]%Z [("s", [0; 2])]%Z in
  exodus_mesh m /\ no_components (dkeys (ei_pd m)) /\
  exists f, write_exodus 0%Z m = Ok f /\ length (nc_vars f) = 14.
Proof.
  cbv zeta. split; [|split].
  - split; cbn.
    + lia.
    + repeat constructor.
    + repeat first [apply Forall_nil | apply Forall_cons]; cbn; auto 20.
    + split; [repeat constructor; cbn; intuition discriminate|]. repeat constructor.
    + split; [repeat constructor; cbn; intuition discriminate|]. repeat constructor.
  - split; cbn; intros s H.
    + intros Y _. destruct Y as [Y|[Y|[Y|[]]]]; destruct s as [|a [|b [|d s]]]; cbn in Y; discriminate.
    + intros _. destruct H as [Y|[Y|[Y|[]]]]; destruct s as [|a [|b [|d s]]]; cbn in Y; discriminate.
  - eexists. split; [vm_compute; reflexivity|reflexivity].
Qed.
Example C61_example_elements :
  read_exodus 0%Z (Nc 3 (("coord"%string, NcMat [[0; 1; 0]; [0; 0; 1]]%Z) :: conn_vars [("tri3", [[1; 2; 3]]); ("BAR2", [[1; 2]; [2; 3]])]%Z
     ++ ("name_elem_var"%string, NcNames ["p"; "q"]%string) :: elem_vars [[[7]; [8; 9]]; [[1]; [2; 3]]]%Z))
  = Ok (ExOut [[0; 0]; [1; 0]; [0; 1]]%Z [Block "triangle" [[0; 1; 2]]; Block "line" [[0; 1]; [1; 2]]]%Z []
         [("p", [[7]; [8; 9]]); ("q", [[1]; [2; 3]])]%Z []).
Proof. vm_compute. reflexivity. Qed.

(** Names that look like components are merged. *)
Theorem C61_components_refuted : exists m f, exodus_mesh m /\ write_exodus 0%Z m = Ok f /\
  dkeys (ei_pd m) = ["uX"; "uY"; "uZ"]%string /\
  read_exodus 0%Z f = Ok (ExOut (ei_points m) (ei_cells m) [("u"%string, P2 [[1; 2; 3]]%Z)] [] []).
Proof.
  exists (ExIn 2 [[0; 0]]%Z [] [("uX", P1 [1]); ("uY", P1 [2]); ("uZ", P1 [3])]%Z []). eexists. split; [|split; [vm_compute; reflexivity|split; vm_compute; reflexivity]].
  split; cbn; try lia; repeat constructor; cbn; try lia; intuition discriminate.
Qed.
Print Assumptions C61_components_refuted.
(** Together with an array that has the name of the stem, that array is lost. *)
Theorem C61_stem_refuted : exists m f, exodus_mesh m /\ write_exodus 0%Z m = Ok f /\ dget "u"%string (ei_pd m) = Some (P1 [9]%Z) /\
  read_exodus 0%Z f = Ok (ExOut (ei_points m) (ei_cells m) [("u"%string, P2 [[1; 2; 3]]%Z)] [] []).
Proof.
  exists (ExIn 2 [[0; 0]]%Z [] [("uX", P1 [1]); ("uY", P1 [2]); ("uZ", P1 [3]); ("u", P1 [9])]%Z []).
  eexists. split; [|split; [vm_compute; reflexivity|split; vm_compute; reflexivity]].
  split; cbn; try lia; repeat constructor; cbn; try lia; intuition discriminate.
Qed.
Print Assumptions C61_stem_refuted.
(** The Exodus names TET4 and TETRA4 are turned into a type that meshio does not know. *)
Theorem C61_tetra4_refuted (rows : list cell) :
  read_exodus 0%Z (Nc 4 [("connect1"%string, NcConn "TET4" rows)]) = Err KeyError /\
  read_exodus 0%Z (Nc 4 [("connect1"%string, NcConn "TETRA4" rows)]) = Err KeyError.
Proof. split; reflexivity. Qed.
Print Assumptions C61_tetra4_refuted.
(** A variable stored only for the second block is taken to begin with the first. *)
Theorem C61_missing_block_refuted : exists f, f = Nc 2 [("connect1", NcConn "BAR2" [[1; 2]]); ("connect2", NcConn "BAR2" [[2; 1]]);
     ("name_elem_var", NcNames ["p"]); ("vals_elem_var1eb2", NcElem [[7]])]%Z%string /\
  exists r, read_exodus 0%Z f = Ok r /\ eo_cd r = [("p"%string, [[7]; []])]%Z.
Proof. eexists. split; [reflexivity|]. eexists. split; vm_compute; reflexivity. Qed.
Print Assumptions C61_missing_block_refuted.
