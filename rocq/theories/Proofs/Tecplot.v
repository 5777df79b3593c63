(** Lemmas for C49: which cells the writer selects. *)
From Verif.Lib Require Import Base Facts Facts2 Text Lines.
From Verif.Model Require Import Core Tables Abaqus Avsucd Tecplot.
From Verif.Spec Require Import Tecplot.
From Verif.Proofs Require Import Gmsh Gmsh22.

Lemma tec_known t : dmem t meshio_to_tecplot_type = match dget t tec_types with Some _ => true | None => false end.
Proof. unfold dmem, dget, meshio_to_tecplot_type, tec_types. repeat (destruct (String.eqb t _); [reflexivity|]). reflexivity. Qed.

Definition pads (o : list nat) (n k : nat) : Prop :=
  forall c : cell, length c = n -> exists row, permute o c = Some row /\ length row = k /\ padded c row.
(** Facts about each entry of the table. *)
Lemma tec_facts t d n : dget t tec_types = Some (d, n) ->
  dget t tecplot_ndim = Some d /\ In d [1; 2; 3] /\
  (exists z k u o, dget t meshio_to_tecplot_type = Some z /\ dget z zone_nodes = Some (k, u) /\ dget t tecplot_order = Some o /\ pads o n k) /\
  (d = 1 -> t = "line" /\ dget t tecplot_order_2 = None) /\
  (d <> 1 -> exists o, dget t tecplot_order_2 = Some o /\ pads o n (if Nat.eqb d 2 then 4 else 8)).
Proof.
  intros H. apply dget_In in H.
  repeat (destruct H as [H|H]; [injection H as <- <- <-;
    (split; [reflexivity|]; split; [cbn; tauto|]; split; [|split; [intros A; first [discriminate A|split; reflexivity]|intros A; first [now destruct A|clear A]]])|]); [..|destruct H].
  all: try (do 4 eexists; split; [reflexivity|]; split; [reflexivity|]; split; [reflexivity|]).
  all: try (eexists; split; [reflexivity|]).
  all: intros c Hc; repeat (destruct c as [|? c]; [discriminate Hc|]); destruct c; [|discriminate Hc];
    eexists; (split; [reflexivity|]); (split; [reflexivity|]); (split; [intros i; cbn [In]; tauto|first [reflexivity|discriminate]]).
Qed.

Lemma known_dim b : dmem (btype b) meshio_to_tecplot_type = match tec_dim b with Some _ => true | None => false end.
Proof. rewrite tec_known. unfold tec_dim. now destruct (dget (btype b) tec_types). Qed.
Lemma dim_range b d : tec_dim b = Some d -> d = 1 \/ d = 2 \/ d = 3.
Proof.
  unfold tec_dim. destruct (dget (btype b) tec_types) as [[d' n]|] eqn:E; [|discriminate]. intros [= <-].
  destruct (tec_facts _ _ _ E) as (_ & H & _). cbn in H. intuition.
Qed.
Lemma dim_ndim b d : tec_dim b = Some d -> dget (btype b) tecplot_ndim = Some d.
Proof.
  unfold tec_dim. destruct (dget (btype b) tec_types) as [[d' n]|] eqn:E; [|discriminate]. intros [= <-].
  now destruct (tec_facts _ _ _ E) as (H & _).
Qed.

Definition known (l : list (nat * block)) := filter (fun ib : nat * block => dmem (btype (snd ib)) meshio_to_tecplot_type) l.
Definition of_dim d (l : list (nat * block)) := filter (fun ib : nat * block => match tec_dim (snd ib) with Some d' => Nat.eqb d' d | None => false end) l.
Lemma known_dims l : mapM (fun ib => of_option KeyError (dget (btype (snd ib)) tecplot_ndim)) (known l) = Ok (tec_dims (map snd l)).
Proof.
  induction l as [|[i b] l IH]; [reflexivity|]. unfold known, tec_dims. cbn [filter map flat_map snd]. rewrite known_dim.
  destruct (tec_dim b) as [d|] eqn:E; [|exact IH]. cbn [mapM snd]. rewrite (dim_ndim _ _ E). cbn [of_option bind].
  change (filter _ l) with (known l). rewrite IH. reflexivity.
Qed.
Lemma known_three l : map snd (filter (fun du => Nat.eqb (fst du) 3) (combine (tec_dims (map snd l)) (known l))) = of_dim 3 l.
Proof.
  induction l as [|[i b] l IH]; [reflexivity|]. unfold known, tec_dims, of_dim. cbn [filter map flat_map snd]. rewrite known_dim.
  destruct (tec_dim b) as [d|] eqn:E; [|exact IH]. cbn [combine filter app fst]. destruct (Nat.eqb d 3); [cbn [map snd]; f_equal|]; exact IH.
Qed.
Lemma known_all d (l : list (nat * block)) : (forall x, In x (tec_dims (map snd l)) -> x = d) -> known l = of_dim d l.
Proof.
  unfold known, of_dim, tec_dims. induction l as [|[i b] l IH]; intros H; [reflexivity|]. cbn [filter map flat_map snd] in *. rewrite known_dim.
  destruct (tec_dim b) as [d'|] eqn:E; [|auto]. cbn [app In] in H. rewrite (H d') by auto. rewrite Nat.eqb_refl, IH by auto. reflexivity.
Qed.
Lemma in_dims x (l : list (nat * block)) : In x (tec_dims (map snd l)) <-> exists ib, In ib l /\ tec_dim (snd ib) = Some x.
Proof.
  unfold tec_dims. rewrite in_flat_map. split.
  - intros (b & Hb & Hx). apply in_map_iff in Hb. destruct Hb as (ib & <- & Hi). exists ib. split; [auto|]. destruct (tec_dim (snd ib)); [|destruct Hx]. destruct Hx as [->|[]]. reflexivity.
  - intros (ib & Hi & E). exists (snd ib). split; [now apply in_map|]. rewrite E. now left.
Qed.
Lemma dims_range (l : list (nat * block)) x : In x (tec_dims (map snd l)) -> x = 1 \/ x = 2 \/ x = 3.
Proof. intros H. apply in_dims in H. destruct H as (ib & _ & E). eapply dim_range; eauto. Qed.

(** The number of different dimensions. *)
Definition has (k : nat) (l : list nat) : nat := if in_dec Nat.eq_dec k l then 1 else 0.
Lemma nodup_dims l : (forall x, In x l -> x = 1 \/ x = 2 \/ x = 3) -> length (nodup Nat.eq_dec l) = has 1 l + has 2 l + has 3 l.
Proof.
  induction l as [|x l IH]; intros H; [reflexivity|]. cbn [nodup]. specialize (IH (fun y Hy => H y (or_intror Hy))).
  assert (Hx : has x (x :: l) = 1) by (unfold has; destruct (in_dec _ x (x :: l)) as [|n]; [reflexivity|destruct n; now left]).
  assert (Ho : forall k, k <> x -> has k (x :: l) = has k l).
  { intros k Hk. unfold has. destruct (in_dec _ k (x :: l)) as [i|n], (in_dec _ k l) as [j|m]; try reflexivity; exfalso; cbn [In] in *; intuition congruence. }
  assert (Hs : length (if in_dec Nat.eq_dec x l then nodup Nat.eq_dec l else x :: nodup Nat.eq_dec l) + has x l = length (nodup Nat.eq_dec l) + 1).
  { unfold has. destruct (in_dec Nat.eq_dec x l); cbn [length]; lia. }
  destruct (H x (or_introl eq_refl)) as [->|[->| ->]]; rewrite Hx; rewrite !Ho by discriminate; lia.
Qed.
Lemma has_1 k l : has k l = 1 <-> In k l.
Proof. unfold has. destruct (in_dec _ k l); intuition discriminate. Qed.
Lemma has_0 k l : has k l = 0 <-> ~ In k l.
Proof. unfold has. destruct (in_dec _ k l); intuition discriminate. Qed.

Lemma max_dims l d : In d l -> (forall x, In x l -> x <= d) -> list_max l = d.
Proof.
  intros Hi Hm. apply Nat.le_antisymm.
  - apply list_max_le. now apply Forall_forall.
  - assert (H := proj1 (list_max_le l (list_max l)) (Nat.le_refl _)). rewrite Forall_forall in H. auto.
Qed.

(** The rows. *)
Definition good_blocks (l : list (nat * block)) : Prop := Forall (fun ib => tec_block (snd ib)) l.
Lemma rows_ok orders k l : l <> [] ->
  Forall (fun ib => exists o, dget (btype (snd ib)) orders = Some o /\
    Forall (fun c => exists row, permute o c = Some row /\ length row = k /\ padded c row) (bdata (snd ib))) l ->
  exists rows, tec_rows orders l = Ok rows /\ Forall (fun r => length r = k) rows /\ Forall2 padded (concat (map (fun ib => bdata (snd ib)) l)) rows.
Proof.
  intros Hne H. unfold tec_rows.
  assert (E : exists rs, mapM (fun ib => do o <- of_option KeyError (dget (btype (snd ib)) orders);
      mapM (fun c => of_option IndexError (permute o c)) (bdata (snd ib))) l = Ok rs /\
      length rs = length l /\ Forall (fun r => length r = k) (concat rs) /\ Forall2 padded (concat (map (fun ib => bdata (snd ib)) l)) (concat rs)).
  { clear Hne. induction H as [|[i b] l (o & Ho & Hc) H IH]; [exists []; repeat split; constructor|]. destruct IH as (rs & E & L & F & G).
    cbn [snd] in Ho, Hc. assert (R : exists r, mapM (fun c => of_option IndexError (permute o c)) (bdata b) = Ok r /\ Forall (fun x => length x = k) r /\ Forall2 padded (bdata b) r).
    { clear - Hc. induction Hc as [|c cs (row & Hp & Hl & Hs) Hc IH]; [exists []; repeat split; constructor|]. destruct IH as (r & E & F & G).
      exists (row :: r). cbn [mapM]. rewrite Hp. cbn [of_option bind]. rewrite E. cbn [bind]. repeat split; constructor; auto. }
    destruct R as (r & Er & Fr & Gr). exists (r :: rs). cbn [mapM snd]. rewrite Ho. cbn [of_option bind]. rewrite Er. cbn [bind]. rewrite E. cbn [bind].
    split; [reflexivity|]. split; [cbn; now rewrite L|]. cbn [concat map snd]. split; [now apply Forall_app|now apply Forall2_app]. }
  destruct E as (rs & -> & L & F & G). cbn [bind]. destruct rs; [destruct l; [congruence|discriminate]|]. eexists. split; [reflexivity|]. split; assumption.
Qed.
Lemma of_dim_in d l ib : In ib (of_dim d l) -> In ib l /\ tec_dim (snd ib) = Some d.
Proof. intros H. apply filter_In in H. destruct H as [Hi E]. split; [auto|]. destruct (tec_dim (snd ib)); [|discriminate]. apply Nat.eqb_eq in E. now subst. Qed.
Lemma of_dim_nonempty d l : In d (tec_dims (map snd l)) -> of_dim d l <> [].
Proof.
  intros H E. apply in_dims in H. destruct H as (ib & Hi & Ed). assert (H : In ib (of_dim d l)) by (apply filter_In; rewrite Ed, Nat.eqb_refl; auto).
  rewrite E in H. destruct H.
Qed.

(** Several types: the blocks of dimension two or three. *)
Lemma rows_2 d l : d <> 1 -> good_blocks l -> In d (tec_dims (map snd l)) ->
  exists rows, tec_rows tecplot_order_2 (of_dim d l) = Ok rows /\ Forall (fun r => length r = (if Nat.eqb d 2 then 4 else 8)) rows /\
    Forall2 padded (concat (map (fun ib => bdata (snd ib)) (of_dim d l))) rows.
Proof.
  intros Hd Hg Hi. apply rows_ok; [now apply of_dim_nonempty|]. apply Forall_forall. intros ib Hib. apply of_dim_in in Hib. destruct Hib as [Hib E].
  assert (Hgi := proj1 (Forall_forall _ _) Hg ib Hib). clear Hg. rename Hgi into Hg. cbv beta in Hg. unfold tec_dim in E. destruct (dget (btype (snd ib)) tec_types) as [[d' n]|] eqn:Et; [|discriminate].
  injection E as ->. destruct (tec_facts _ _ _ Et) as (_ & _ & _ & _ & F). destruct (F Hd) as (o & Ho & Hp). exists o. split; [exact Ho|].
  specialize (Hg d n Et). eapply Forall_impl; [|exact Hg]. intros c Hc. exact (Hp c Hc).
Qed.

Definition zone_for (bs : list block) (z : string) (k : nat) (u : string) : Prop :=
  dget z zone_nodes = Some (k, u).
Lemma nodup_same (l : list string) t : nodup string_dec l = [t] -> Forall (eq t) l /\ l <> [].
Proof.
  intros H. split.
  - apply Forall_forall. intros x Hx. apply (nodup_In string_dec) in Hx. rewrite H in Hx. destruct Hx as [->|[]]. reflexivity.
  - intros ->. discriminate.
Qed.
Lemma tec_dims_nil l : tec_dims (map snd l) = [] <-> known l = [].
Proof.
  unfold tec_dims, known. induction l as [|[i b] l IH]; [now cbn|]. cbn [filter map flat_map snd]. rewrite known_dim. destruct (tec_dim b); [split; discriminate|exact IH].
Qed.
Lemma known_in ib l : In ib (known l) <-> In ib l /\ tec_dim (snd ib) <> None.
Proof. unfold known. rewrite filter_In, known_dim. destruct (tec_dim (snd ib)); intuition congruence. Qed.

(** What the writer selects. *)
Lemma select_ok bs : Forall tec_block bs -> tec_accepts bs ->
  exists z k rows, tec_select bs = Ok (z, top_blocks bs, rows) /\ Forall (fun r => length r = k) rows /\ Forall2 padded (top_cells bs) rows /\
    (~ surface_first bs -> exists u, dget z zone_nodes = Some (k, u)) /\ (surface_first bs -> z = "FEQUADRILATERAL" /\ k = 8).
Proof.
  intros Hb [Hne Hacc]. unfold tec_select. set (l := enumerate bs). assert (Hl : map snd l = bs) by apply enumerate_snd.
  assert (Hg : good_blocks l). { unfold good_blocks. rewrite <- Hl in Hb. exact (proj1 (Forall_map _ _ _) Hb). }
  change (tec_blocks bs) with (known l). rewrite <- Hl in Hne, Hacc. unfold top_cells, surface_first.
  assert (Ht : top_blocks bs = of_dim (list_max (tec_dims (map snd l))) l) by (unfold top_blocks, top_dim; now rewrite Hl). rewrite Ht. clear Ht. rewrite <- Hl. clearbody l. clear Hl Hb bs.
  destruct (nodup string_dec (map (fun ib => btype (snd ib)) (known l))) as [|t [|t' ts]] eqn:En.
  - exfalso. apply Hne. apply tec_dims_nil. destruct (known l) as [|ib k] eqn:E; [reflexivity|]. exfalso.
    assert (H : In (btype (snd ib)) (nodup string_dec (map (fun ib => btype (snd ib)) (ib :: k)))) by (apply nodup_In; now left). rewrite En in H. destruct H.
  - apply nodup_same in En. destruct En as [En Ek]. rewrite Forall_map, Forall_forall in En.
    destruct (known l) as [|ib0 k0] eqn:E; [now destruct Ek|]. assert (H0 : In ib0 (known l)) by (rewrite E; now left). rewrite <- E in *.
    assert (Et : exists d n, dget t tec_types = Some (d, n)).
    { rewrite (En ib0 H0). apply known_in in H0. destruct H0 as [_ H0]. unfold tec_dim in H0. destruct (dget (btype (snd ib0)) tec_types) as [[d n]|]; [now eexists _, _|now destruct H0]. }
    destruct Et as (d & n & Et). destruct (tec_facts _ _ _ Et) as (_ & Hr & (z & k & u & o & Hz & Hzn & Ho & Hp) & _).
    assert (Hall : forall x, In x (tec_dims (map snd l)) -> x = d).
    { intros x Hx. apply in_dims in Hx. destruct Hx as (ib & Hi & Ex). assert (Hk : In ib (known l)) by (apply known_in; split; congruence). apply En in Hk.
      unfold tec_dim in Ex. rewrite <- Hk, Et in Ex. cbn in Ex. congruence. }
    assert (Hd : In d (tec_dims (map snd l))).
    { apply in_dims. exists ib0. apply known_in in H0 as H1. destruct H1 as [Hi _]. split; [auto|]. unfold tec_dim. rewrite <- (En ib0 H0), Et. reflexivity. }
    rewrite (max_dims _ d Hd) by (intros x Hx; rewrite (Hall x Hx); lia). rewrite <- (known_all d l Hall).
    destruct (rows_ok tecplot_order k (known l)) as (rows & Er & F & G).
    { rewrite E. discriminate. }
    { apply Forall_forall. intros ib Hk. exists o. rewrite <- (En ib Hk). split; [exact Ho|]. apply known_in in Hk as Hk'. destruct Hk' as [Hi _]. unfold good_blocks in Hg. rewrite Forall_forall in Hg.
      specialize (Hg ib Hi d n). rewrite <- (En ib Hk) in Hg. specialize (Hg Et). eapply Forall_impl; [|exact Hg]. intros c Hc. exact (Hp c Hc). }
    rewrite Hz. cbn [of_option bind]. rewrite Er. cbn [bind]. exists z, k, rows. split; [reflexivity|]. split; [exact F|]. split; [exact G|]. split; [intros _; now exists u|].
    intros [H2 H3]. apply Hall in H3. subst d. destruct (tec_dims (map snd l)) as [|x xs]; [destruct Hd|]. cbn [hd] in H2. specialize (Hall x (or_introl eq_refl)). congruence.
  - rewrite known_dims. cbn [bind]. set (ds := tec_dims (map snd l)) in *.
    rewrite (nodup_dims ds (dims_range l)).
    assert (H13 : In 2 ds \/ In 3 ds).
    { destruct (in_dec Nat.eq_dec 2 ds) as [|n2]; [now left|]. destruct (in_dec Nat.eq_dec 3 ds) as [|n3]; [now right|]. exfalso.
      assert (Hline : forall s, In s (map (fun ib => btype (snd ib)) (known l)) -> s = "line").
      { intros s Hs. apply in_map_iff in Hs. destruct Hs as (ib & <- & Hk). apply known_in in Hk. destruct Hk as [Hi Hk]. destruct (tec_dim (snd ib)) as [x|] eqn:Ex; [|congruence].
        assert (Hx : In x ds) by (apply in_dims; eauto). destruct (dims_range l x Hx) as [->|[->| ->]]; try contradiction. unfold tec_dim in Ex.
        destruct (dget (btype (snd ib)) tec_types) as [[d n]|] eqn:Et; [|discriminate]. injection Ex as ->. destruct (tec_facts _ _ _ Et) as (_ & _ & _ & F & _). now apply F. }
      pose proof (NoDup_nodup string_dec (map (fun ib => btype (snd ib)) (known l))) as Hn. rewrite En in Hn. inversion Hn as [|? ? Hni _]; subst.
      apply Hni. left. transitivity "line"; [|symmetry]; apply Hline; apply (nodup_In string_dec); rewrite En; cbn; auto. }
    destruct (in_dec Nat.eq_dec 3 ds) as [i3|n3].
    + (* solids *)
      rewrite (max_dims ds 3 i3) by (intros x Hx; destruct (dims_range l x Hx) as [->|[->| ->]]; lia).
      destruct (rows_2 3 l ltac:(discriminate) Hg i3) as (rows & Er & F & G). change (if Nat.eqb 3 2 then 4 else 8) with 8 in F.
      assert (Hu : (if Nat.eqb (has 1 ds + has 2 ds + has 3 ds) 2 then map snd (filter (fun du => Nat.eqb (fst du) 3) (combine ds (known l))) else known l) = of_dim 3 l).
      { apply has_1 in i3 as h3. rewrite h3. destruct (in_dec Nat.eq_dec 1 ds) as [i1|n1], (in_dec Nat.eq_dec 2 ds) as [i2|n2].
        - tauto.
        - apply has_1 in i1. apply has_0 in n2. rewrite i1, n2. cbn [Nat.add Nat.eqb]. apply known_three.
        - apply has_0 in n1. apply has_1 in i2. rewrite n1, i2. cbn [Nat.add Nat.eqb]. apply known_three.
        - apply has_0 in n1 as h1. apply has_0 in n2 as h2. rewrite h1, h2. cbn [Nat.add Nat.eqb]. apply known_all. intros x Hx. destruct (dims_range l x Hx) as [->|[->| ->]]; [contradiction|contradiction|reflexivity]. }
      rewrite Hu, Er. cbn [bind]. eexists _, 8, rows. split; [reflexivity|]. split; [exact F|]. split; [exact G|].
      split.
      * intros Hs. destruct (Nat.eqb_spec (hd 0 ds) 2) as [e|e]; [destruct Hs; now split|]. exists "hexahedron". reflexivity.
      * intros [H2 _]. rewrite H2. split; reflexivity.
    + (* surfaces *)
      destruct H13 as [i2|]; [|contradiction]. assert (n1 : ~ In 1 ds) by tauto.
      assert (Hall : forall x, In x ds -> x = 2) by (intros x Hx; destruct (dims_range l x Hx) as [->|[->| ->]]; [contradiction|reflexivity|contradiction]).
      rewrite (max_dims ds 2 i2) by (intros x Hx; rewrite (Hall x Hx); lia).
      destruct (rows_2 2 l ltac:(discriminate) Hg i2) as (rows & Er & F & G). change (if Nat.eqb 2 2 then 4 else 8) with 4 in F.
      apply has_0 in n1 as h1. apply has_1 in i2 as h2. apply has_0 in n3 as h3. rewrite h1, h2, h3. cbn [Nat.add Nat.eqb]. rewrite (known_all 2 l Hall), Er. cbn [bind].
      assert (Hh : hd 0 ds = 2) by (destruct ds as [|x xs]; [destruct i2|apply Hall; now left]). rewrite Hh.
      eexists _, 4, rows. split; [reflexivity|]. split; [exact F|]. split; [exact G|]. split; [intros _; now exists "quad"|intros [_ ?]; contradiction].
Qed.

(** Everything else is refused. *)
Lemma select_err bs : ~ tec_accepts bs -> exists e, tec_select bs = Err e.
Proof.
  intros Hn. unfold tec_select. set (l := enumerate bs). assert (Hl : map snd l = bs) by apply enumerate_snd.
  change (tec_blocks bs) with (known l). unfold tec_accepts in Hn. rewrite <- Hl in Hn. clearbody l. clear Hl bs.
  destruct (nodup string_dec (map (fun ib => btype (snd ib)) (known l))) as [|t [|t' ts]] eqn:En; [now eexists|..].
  - exfalso. apply nodup_same in En. destruct En as [En Ek]. rewrite Forall_map, Forall_forall in En. apply Hn. split.
    + intros H. apply tec_dims_nil in H. rewrite H in Ek. now apply Ek.
    + intros [H1 H2]. apply in_dims in H1, H2. destruct H1 as (a & Ha & Da), H2 as (b & Hb & Db).
      assert (Ka : In a (known l)) by (apply known_in; split; congruence). assert (Kb : In b (known l)) by (apply known_in; split; congruence).
      apply En in Ka, Kb. unfold tec_dim in Da, Db. rewrite <- Ka in Da. rewrite <- Kb in Db. congruence.
  - rewrite known_dims. cbn [bind]. set (ds := tec_dims (map snd l)) in *.
    assert (H12 : In 1 ds /\ In 2 ds).
    { destruct (in_dec Nat.eq_dec 1 ds) as [i1|n1]; [|exfalso; apply Hn; split; [|tauto]].
      - split; [exact i1|]. destruct (in_dec Nat.eq_dec 2 ds) as [i2|n2]; [exact i2|exfalso; apply Hn; split; [|tauto]]. intros E. rewrite E in i1. destruct i1.
      - intros E. apply tec_dims_nil in E. rewrite E in En. discriminate. }
    destruct H12 as [i1 i2]. rewrite (nodup_dims ds (dims_range l)). apply has_1 in i1 as h1. apply has_1 in i2 as h2. rewrite h1, h2.
    destruct (in_dec Nat.eq_dec 3 ds) as [i3|n3].
    + apply has_1 in i3. rewrite i3. cbn [Nat.add Nat.eqb]. apply in_dims in i1. destruct i1 as (a & Ha & Da).
      assert (Ka : In a (known l)) by (apply known_in; split; congruence).
      assert (E : exists e, tec_rows tecplot_order_2 (known l) = Err e).
      { unfold tec_rows. assert (E : exists e, mapM (fun ib => do o <- of_option KeyError (dget (btype (snd ib)) tecplot_order_2);
          mapM (fun c => of_option IndexError (permute o c)) (bdata (snd ib))) (known l) = Err e).
        { clear - Ka Da. induction (known l) as [|x xs IH]; [destruct Ka|]. cbn [mapM]. destruct Ka as [->|Ka].
          - unfold tec_dim in Da. destruct (dget (btype (snd a)) tec_types) as [[d n]|] eqn:Et; [|discriminate]. injection Da as ->. destruct (tec_facts _ _ _ Et) as (_ & _ & _ & F & _).
            destruct (F eq_refl) as [_ Ho]. rewrite Ho. now eexists.
          - destruct (IH Ka) as [e E]. rewrite E. match goal with |- exists _, bind ?x _ = _ => destruct x end; now eexists. }
        destruct E as [e ->]. now eexists. }
      destruct E as [e ->]. now eexists.
    + apply has_0 in n3 as h3. rewrite h3. cbn [Nat.add Nat.eqb]. replace ds with (tec_dims (map snd l)) by reflexivity. rewrite known_three.
      replace (of_dim 3 l) with (@nil (nat * block)); [now eexists|]. symmetry. destruct (of_dim 3 l) as [|x xs] eqn:E; [reflexivity|exfalso]. apply n3.
      assert (H : In x (of_dim 3 l)) by (rewrite E; now left). apply of_dim_in in H. apply in_dims. now exists x.
Qed.
