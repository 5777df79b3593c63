From Coq Require Import Ring_theory Ring.
From Verif.Lib Require Import Base Facts Facts2 Text TextFacts Lines LinesFacts BytesFacts.
From Verif.Model Require Import Core Info Tables Snoc Abaqus Flac3d.
From Verif.Spec Require Import Core Blocks Flac3d.
From Verif.Proofs Require Import Blocks Gmsh22 Info Abaqus Snoc.
Local Arguments str_of_nat : simpl never.
Local Arguments str_of_Z : simpl never.

(** ** Orders *)
Lemma shapes_cases (P : string -> shape -> Prop) :
  (forall t s, In (t, s) zone_shapes -> P t s) -> forall t s, dget t zone_shapes = Some s -> P t s.
Proof. intros H t s E. apply H. now apply dget_In. Qed.

Ltac each_shape H := cbn [zone_shapes In] in H;
  repeat (destruct H as [H|H]; [injection H as <- <-|]); [..|destruct H].

Lemma permute_select p row : Forall (fun i => i < length row) p -> permute p row = Some (select p row).
Proof.
  unfold permute, select. induction 1 as [|i p Hi _ IH]; [reflexivity|]. cbn [mapO map]. rewrite (nth_error_nth' row 0%Z) by auto.
  now rewrite IH.
Qed.
Lemma select_select p q row : Forall (fun i => i < length q) p -> select p (select q row) = select (map (fun i => nth i q 0) p) row.
Proof.
  unfold select. intros H. rewrite map_map. apply map_ext_in. intros i Hi. rewrite Forall_forall in H. specialize (H i Hi).
  rewrite (nth_indep _ 0%Z (nth 0 row 0%Z)) by now rewrite map_length. now rewrite (map_nth (fun k => nth k row 0%Z)).
Qed.

(** The two orders of a shape. *)
Lemma shape_orders t s : dget t zone_shapes = Some s ->
  dget t flac3d_zones = Some (sh_type s) /\
  exists o1 o2 q, dget (sh_type s) meshio_to_flac3d_order = Some o1 /\ dget (sh_type s) meshio_to_flac3d_order_2 = Some o2 /\
    dget (sh_type s) flac3d_to_meshio_order = Some q /\
    firstn 4 o1 = sh_axes s /\ length o1 = sh_corners s /\ length o2 = sh_corners s /\ 4 <= sh_corners s /\
    Forall (fun i => i < sh_corners s) o1 /\ Forall (fun i => i < sh_corners s) o2 /\ Forall (fun i => i < sh_corners s) q /\
    map (fun i => nth i o1 0) q = seq 0 (sh_corners s) /\ map (fun i => nth i o2 0) q = sh_mirror s /\ length q = sh_corners s /\
    zget (Z.of_nat (sh_corners s)) flac3d_zone_nodes = Some (sh_type s) /\ sh_corners s <> 7 /\
    (exists code, dget (sh_type s) meshio_to_flac3d_type = Some code /\ word code = true /\ code <> "B7"%string).
Proof.
  intros H. apply dget_In in H. each_shape H; (split; [reflexivity|]);
  do 3 eexists; (split; [reflexivity|]); (split; [reflexivity|]); (split; [reflexivity|]);
  repeat match goal with |- _ /\ _ => split end;
  lazymatch goal with
  | |- Forall _ _ => cbn; repeat (constructor; try lia)
  | |- ex _ => eexists; split; [reflexivity|]; split; [reflexivity|discriminate]
  | |- _ <= _ => cbn; lia
  | |- _ <> _ => cbn; lia
  | |- _ => reflexivity
  end.
Qed.

(** ** The orientation *)
Section Geometry.
Context {F : Type} (g : geom F).

Lemma point_at_ok (pts : list (list F)) i : Forall (fun p => length p = 3) pts -> (0 <= i < Z.of_nat (length pts))%Z ->
  exists x y z, point_at pts i = Ok [x; y; z] /\ point3 pts i = Some (x, y, z).
Proof.
  intros H Hi. unfold point_at, point3. rewrite np_index_ok by lia. unfold pos_of. destruct (Z.ltb_spec i 0); [lia|]. cbn [bind].
  destruct (nth_error pts (Z.to_nat i)) as [p|] eqn:E; [|apply nth_error_None in E; lia].
  assert (Hp := proj1 (Forall_forall _ _) H p (nth_error_In _ _ E)). cbn in Hp.
  do 4 (destruct p as [|? p]; try discriminate). cbn. eauto.
Qed.

Lemma zone_det_ok (pts : list (list F)) row : Forall (fun p => length p = 3) pts -> 4 <= length row ->
  Forall (fun i => (0 <= i < Z.of_nat (length pts))%Z) (firstn 4 row) ->
  exists v, zone_det g pts row = Ok v /\ triple g pts (firstn 4 row) = Some v.
Proof.
  intros Hp Hl Hr. do 4 (destruct row as [|? row]; [cbn in Hl; lia|]). cbn [firstn] in *.
  assert (Hx : forall k, In k [z; z0; z1; z2] -> (0 <= k < Z.of_nat (length pts))%Z) by (now apply Forall_forall). clear Hr.
  assert (H0 := Hx z ltac:(cbn; auto)). assert (H1 := Hx z0 ltac:(cbn; auto)).
  assert (H2 := Hx z1 ltac:(cbn; auto)). assert (H3 := Hx z2 ltac:(cbn; auto)).
  destruct (point_at_ok _ _ Hp H0) as (x0 & y0 & w0 & A0 & B0), (point_at_ok _ _ Hp H1) as (x1 & y1 & w1 & A1 & B1),
    (point_at_ok _ _ Hp H2) as (x2 & y2 & w2 & A2 & B2), (point_at_ok _ _ Hp H3) as (x3 & y3 & w3 & A3 & B3).
  unfold zone_det, triple. rewrite A0, A1, A2, A3, B0, B1, B2, B3. cbn [bind minus3 of_option]. eexists. split; reflexivity.
Qed.

Lemma select_firstn k p row : firstn k (select p row) = select (firstn k p) row.
Proof. unfold select. apply firstn_map. Qed.
Lemma select_valid (P : Z -> Prop) p row : Forall P row -> Forall (fun i => i < length row) p -> Forall P (select p row).
Proof.
  intros H Hp. unfold select. apply Forall_forall. intros z Hz. apply in_map_iff in Hz. destruct Hz as (i & <- & Hi).
  rewrite Forall_forall in H, Hp. apply H, nth_In. auto.
Qed.

(** What is written for one cell. *)
Definition zone_written (pts : list (list F)) (s : shape) (o1 o2 : list nat) (row : cell) : cell :=
  if right_handed g pts s row then select o1 row else select o2 row.

Lemma zone_row_ok pts t s o1 o2 row : Forall (fun p => length p = 3) pts ->
  dget t zone_shapes = Some s -> dget (sh_type s) meshio_to_flac3d_order = Some o1 -> dget (sh_type s) meshio_to_flac3d_order_2 = Some o2 ->
  sh_corners s <= length row -> Forall (fun i => (0 <= i < Z.of_nat (length pts))%Z) row ->
  zone_row g pts (sh_type s) row = Ok (zone_written pts s o1 o2 row).
Proof.
  intros Hp Ht E1 E2 Hl Hr. destruct (shape_orders _ _ Ht) as (_ & o1' & o2' & q & E1' & E2' & _ & Hf & L1 & L2 & H4 & B1 & B2 & _).
  assert (o1' = o1) by congruence. assert (o2' = o2) by congruence. subst o1' o2'. clear E1' E2'.
  assert (B1' : Forall (fun i => i < length row) o1) by (eapply Forall_impl; [|exact B1]; cbn; intros; lia).
  assert (B2' : Forall (fun i => i < length row) o2) by (eapply Forall_impl; [|exact B2]; cbn; intros; lia).
  unfold zone_row. rewrite E1, E2. cbn [of_option bind]. rewrite (permute_select _ _ B1'), (permute_select _ _ B2'). cbn [of_option bind].
  destruct (zone_det_ok pts (select o1 row) Hp) as (v & Ev & Et).
  - unfold select. rewrite map_length. lia.
  - rewrite select_firstn. apply select_valid; auto. apply Forall_forall. intros i Hi. rewrite Forall_forall in B1'. apply B1'.
    rewrite <- (firstn_skipn 4 o1). apply in_or_app. now left.
  - rewrite Ev. cbn [bind]. rewrite select_firstn, Hf in Et. unfold zone_written, right_handed. rewrite Et. reflexivity.
Qed.

Definition block_written (pts : list (list F)) (b : block) : block :=
  match dget (btype b) zone_shapes with
  | Some s => match dget (sh_type s) meshio_to_flac3d_order, dget (sh_type s) meshio_to_flac3d_order_2 with
              | Some o1, Some o2 => Block (sh_type s) (map (zone_written pts s o1 o2) (bdata b))
              | _, _ => b
              end
  | None => b
  end.

Lemma translate_ok pts bs : Forall (fun p => length p = 3) pts -> Forall (zone_block (length pts)) bs ->
  translate_zcells g pts bs = Ok (map (block_written pts) bs).
Proof.
  intros Hp H. unfold translate_zcells. apply mapM_Forall2. induction H as [|b bs (s & Hs & Hr) _ IH]; cbn [map]; constructor; auto.
  destruct (shape_orders _ _ Hs) as (Z & o1 & o2 & q & E1 & E2 & _). rewrite Z. cbn [of_option bind].
  unfold block_written. rewrite Hs, E1, E2.
  assert (X : mapM (zone_row g pts (sh_type s)) (bdata b) = Ok (map (zone_written pts s o1 o2) (bdata b))); [|now rewrite X].
  apply mapM_Forall2. clear - Hp Hr Hs E1 E2. induction Hr as [|c rows [Hl Hc] _ IH]; cbn [map]; constructor; auto. eapply zone_row_ok; eauto.
Qed.

(** Reading inverts the order. *)
Lemma seen_back pts t s o1 o2 q row : dget t zone_shapes = Some s ->
  dget (sh_type s) meshio_to_flac3d_order = Some o1 -> dget (sh_type s) meshio_to_flac3d_order_2 = Some o2 ->
  dget (sh_type s) flac3d_to_meshio_order = Some q ->
  permute q (zone_written pts s o1 o2 row) = Some (snd (zone_seen g pts (t, row))).
Proof.
  intros Ht E1 E2 E3. destruct (shape_orders _ _ Ht) as (_ & o1' & o2' & q' & E1' & E2' & E3' & Hf & L1 & L2 & H4 & B1 & B2 & B3 & M1 & M2 & _).
  assert (o1' = o1) by congruence. assert (o2' = o2) by congruence. assert (q' = q) by congruence. subst o1' o2' q'.
  unfold zone_seen, zone_written. cbn [fst snd]. rewrite Ht. cbn [snd].
  destruct (right_handed g pts s row); rewrite permute_select by (unfold select; rewrite map_length, ?L1, ?L2; auto);
    rewrite select_select by (rewrite ?L1, ?L2; auto); congruence.
Qed.
End Geometry.
