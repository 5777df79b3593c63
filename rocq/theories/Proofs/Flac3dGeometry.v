(** Orientation of the zones and mirror images. *)
From Coq Require Import Ring_theory Ring Permutation.
From Verif.Lib Require Import Base Facts Facts2 Text.
From Verif.Model Require Import Core Tables Flac3d.
From Verif.Spec Require Import Core Blocks Flac3d.
From Verif.Proofs Require Import Blocks Flac3d Flac3dSets Flac3dFile.

Section Orientation.
Context {F : Type} (g : geom F) (zero one : F) (opp : F -> F).
Hypothesis ring : ring_theory zero one (gadd g) (gmul g) (gsub g) opp eq.
Add Ring exact_ring : ring.

Lemma triple_swap12 pts i0 i1 i2 i3 v : triple g pts [i0; i1; i2; i3] = Some v -> triple g pts [i0; i2; i1; i3] = Some (opp v).
Proof.
  unfold triple. destruct (point3 pts i0) as [[[x0 y0] z0]|], (point3 pts i1) as [[[x1 y1] z1]|], (point3 pts i2) as [[[x2 y2] z2]|],
    (point3 pts i3) as [[[x3 y3] z3]|]; try discriminate. intros H. injection H as <-. f_equal. unfold dot, cross, minus. ring.
Qed.
Lemma triple_swap13 pts i0 i1 i2 i3 v : triple g pts [i0; i1; i2; i3] = Some v -> triple g pts [i0; i3; i2; i1] = Some (opp v).
Proof.
  unfold triple. destruct (point3 pts i0) as [[[x0 y0] z0]|], (point3 pts i1) as [[[x1 y1] z1]|], (point3 pts i2) as [[[x2 y2] z2]|],
    (point3 pts i3) as [[[x3 y3] z3]|]; try discriminate. intros H. injection H as <-. f_equal. unfold dot, cross, minus. ring.
Qed.
Lemma opp_zero : opp zero = zero.
Proof. ring. Qed.

Hypothesis sign : forall x, gpos g x = true \/ x = zero \/ gpos g (opp x) = true.

Lemma triple_four pts row : triple g pts row = triple g pts (firstn 4 row).
Proof. do 4 (destruct row as [|? row]; [reflexivity|]). reflexivity. Qed.

Lemma triple_some pts i0 i1 i2 i3 : Forall (fun p => length p = 3) pts -> Forall (fun i => (0 <= i < Z.of_nat (length pts))%Z) [i0; i1; i2; i3] ->
  exists v, triple g pts [i0; i1; i2; i3] = Some v.
Proof. intros Hp H. destruct (zone_det_ok g pts [i0; i1; i2; i3] Hp) as (v & _ & E); [cbn; lia|exact H|]. exists v. exact E. Qed.

Lemma oriented pts bs t c : Forall (fun p => length p = 3) pts -> Forall (zone_block (length pts)) bs -> In (t, c) (all_cells bs) ->
  exists v, triple g pts (snd (cell_written g pts (t, c))) = Some v /\ (v = zero \/ gpos g v = true).
Proof.
  intros Hp H Hin. unfold all_cells in Hin. apply in_flat_map in Hin. destruct Hin as (b & Hb & Hc). apply in_map_iff in Hc.
  destruct Hc as (c' & E & Hc). injection E as <- <-. rewrite Forall_forall in H. destruct (H b Hb) as (s & Hs & Hr).
  rewrite Forall_forall in Hr. destruct (Hr c' Hc) as [Hl Hv]. clear H Hr Hc Hb.
  destruct (shape_orders _ _ Hs) as (_ & o1 & o2 & q & E1 & E2 & _ & Hf & L1 & L2 & H4 & B1 & B2 & _).
  unfold cell_written. cbn [fst snd]. rewrite Hs, E1, E2. cbn [snd]. unfold zone_written.
  assert (X : exists i0 i1 i2 i3, Forall (fun i => (0 <= i < Z.of_nat (length pts))%Z) [i0; i1; i2; i3] /\ select (sh_axes s) c' = [i0; i1; i2; i3] /\
    (firstn 4 (select o2 c') = [i0; i2; i1; i3] \/ firstn 4 (select o2 c') = [i0; i3; i2; i1])).
  { assert (V : Forall (fun i => (0 <= i < Z.of_nat (length pts))%Z) (select (sh_axes s) c')).
    { apply select_valid; auto. rewrite <- Hf. apply Forall_forall. intros i Hi. rewrite Forall_forall in B1.
      assert (In i o1) by (rewrite <- (firstn_skipn 4 o1); apply in_or_app; now left). specialize (B1 i H). lia. }
    clear - Hs E2 V. apply dget_In in Hs. set (t := btype b) in Hs. clearbody t. clear b. each_shape Hs; vm_compute in E2; injection E2 as <-; do 4 eexists; (split; [exact V|]); (split; [reflexivity|]); first [left; reflexivity|right; reflexivity]. }
  destruct X as (i0 & i1 & i2 & i3 & V & Ea & Eb). destruct (triple_some pts i0 i1 i2 i3 Hp V) as (v & Ev).
  unfold right_handed. rewrite Ea, Ev. destruct (gpos g v) eqn:Eg.
  - exists v. split; [|now right]. rewrite triple_four, select_firstn, Hf, Ea. exact Ev.
  - exists (opp v). split.
    + rewrite triple_four. destruct Eb as [-> | ->]; [now apply triple_swap12|now apply triple_swap13].
    + destruct (sign v) as [Hx|[->|Hx]]; [congruence|left; apply opp_zero|now right].
Qed.
End Orientation.

(** ** Mirror images *)
Lemma select_seq n row : n <= length row -> select (seq 0 n) row = firstn n row.
Proof.
  revert row. induction n as [|n IH]; intros row H; [reflexivity|]. destruct row as [|x row]; [cbn in H; lia|].
  cbn [seq firstn]. unfold select in *. cbn [map nth]. f_equal. rewrite <- seq_shift, map_map. cbn [nth]. apply IH. cbn in H. lia.
Qed.
Lemma mirror_perm t s : dget t zone_shapes = Some s -> Permutation (sh_mirror s) (seq 0 (sh_corners s)).
Proof.
  intros H. apply dget_In in H.
  assert (X : forall l : list nat, NoDup l -> (forall x, In x l <-> In x (seq 0 (length l))) -> Permutation l (seq 0 (length l))).
  { intros l N I. apply NoDup_Permutation; auto. apply seq_NoDup. }
  each_shape H; apply X; try (cbn; intuition lia); cbn; repeat constructor; cbn; intuition discriminate.
Qed.

Definition rotates (l l' : list nat) : bool := existsb (fun k => if list_eq_dec Nat.eq_dec l' (skipn k l ++ firstn k l) then true else false) (seq 0 (S (length l))).
Lemma rotates_ok l l' : rotates l l' = true -> rotation l l'.
Proof.
  unfold rotates. intros H. apply existsb_exists in H. destruct H as (k & _ & H). destruct (list_eq_dec _ _ _) as [->|]; [|discriminate].
  exists (firstn k l), (skipn k l). split; [now rewrite firstn_skipn|reflexivity].
Qed.
Definition mirror_check (s : shape) : bool :=
  forallb (fun f => forallb (fun i => Nat.ltb i (length (sh_mirror s))) f &&
    existsb (fun f' => rotates (rev f') (map (fun i => nth i (sh_mirror s) 0) f)) (shape_faces s)) (shape_faces s).
Lemma rotation_map {A B} (f : A -> B) l l' : rotation l l' -> rotation (map f l) (map f l').
Proof. intros (a & b & -> & ->). exists (map f a), (map f b). now rewrite !map_app. Qed.
Lemma mirror_faces t s row f : dget t zone_shapes = Some s -> In f (shape_faces s) ->
  exists f', In f' (shape_faces s) /\ rotation (rev (select f' row)) (select f (select (sh_mirror s) row)).
Proof.
  intros H Hf. assert (C : mirror_check s = true) by (apply dget_In in H; each_shape H; vm_compute; reflexivity).
  unfold mirror_check in C. rewrite forallb_forall in C. specialize (C f Hf). apply andb_true_iff in C. destruct C as [C1 C2].
  apply existsb_exists in C2. destruct C2 as (f' & Hf' & C2). exists f'. split; [exact Hf'|]. apply rotates_ok in C2.
  rewrite select_select.
  - unfold select. rewrite <- map_rev. now apply rotation_map.
  - apply Forall_forall. intros i Hi. rewrite forallb_forall in C1. now apply Nat.ltb_lt, C1.
Qed.
