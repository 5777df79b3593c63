(** Proofs about sets <-> data conversion (C05, C06, C07). *)
From Coq Require Import Sorted.
From Verif.Lib Require Import Base Facts Text TextFacts.
From Verif.Model Require Import Core.
From Verif.Spec Require Import Core.

(** ** set_values *)
Definition col_has (col : list (option (list nat))) (i k : nat) : Prop :=
  exists ms, nth_error col i = Some (Some ms) /\ In k ms.

Definition sv_step (n : nat) (acc : result (list Z)) (ic : nat * option (list nat)) : result (list Z) :=
  do arr <- acc;
  match snd ic with
  | None => Ok arr
  | Some idx => if forallb (fun i => Nat.ltb i n) idx
                then Ok (scatter idx (Z.of_nat (fst ic)) arr)
                else Err IndexError
  end.

Lemma set_values_fold n col s arr :
  length arr = n ->
  (forall i k, col_has col i k -> k < n) ->
  exists arr', fold_left (sv_step n) (combine (seq s (length col)) col) (Ok arr) = Ok arr' /\
    length arr' = n /\
    forall k, k < n ->
      (exists i, col_has col i k /\ (forall i', i < i' -> ~ col_has col i' k) /\
                 nth_error arr' k = Some (Z.of_nat (s + i))) \/
      ((forall i, ~ col_has col i k) /\ nth_error arr' k = nth_error arr k).
Proof.
  revert s arr; induction col as [|c col IH]; intros s arr Hn Hr.
  - exists arr. cbn. repeat split; auto. intros k Hk. right. split; auto.
    intros i [ms [H _]]. destruct i; discriminate.
  - cbn [length seq combine fold_left].
    assert (Hr' : forall i k, col_has col i k -> k < n).
    { intros i k [ms [H1 H2]]. apply (Hr (S i) k). exists ms. auto. }
    assert (Hshift : forall i k, col_has (c :: col) (S i) k <-> col_has col i k).
    { intros i k. split; intros [ms H]; exists ms; exact H. }
    destruct c as [idx|].
    + unfold sv_step at 2. cbn [bind snd fst].
      assert (Hf : forallb (fun i => Nat.ltb i n) idx = true).
      { apply forallb_forall. intros x Hx. apply Nat.ltb_lt. apply (Hr 0 x). exists idx. auto. }
      rewrite Hf.
      destruct (IH (S s) (scatter idx (Z.of_nat s) arr)) as (arr' & H1 & H2 & H3);
        [now rewrite scatter_length|auto|].
      exists arr'. repeat split; auto. intros k Hk. destruct (H3 k Hk) as [(i & Hi & Hl & Hv)|[Hno Hv]].
      * left. exists (S i). split; [now apply Hshift|]. split.
        -- intros [|i'] Hlt; [lia|]. rewrite Hshift. apply Hl. lia.
        -- rewrite Hv. f_equal. lia.
      * rewrite nth_error_scatter in Hv by lia.
        destruct (existsb (Nat.eqb k) idx) eqn:E.
        -- left. exists 0. apply existsb_exists in E. destruct E as [x [Hx Heq]].
           apply Nat.eqb_eq in Heq. subst x. split; [exists idx; auto|]. split.
           ++ intros [|i'] Hlt; [lia|]. rewrite Hshift. apply Hno.
           ++ rewrite Hv. f_equal. lia.
        -- right. split; auto. intros [|i]; [|rewrite Hshift; apply Hno].
           intros [ms [Hms Hin]]. injection Hms as <-.
           assert (existsb (Nat.eqb k) idx = true) as X; [|congruence].
           apply existsb_exists. exists k. split; auto. apply Nat.eqb_refl.
    + unfold sv_step at 2. cbn [bind snd fst].
      destruct (IH (S s) arr Hn Hr') as (arr' & H1 & H2 & H3).
      exists arr'. repeat split; auto. intros k Hk. destruct (H3 k Hk) as [(i & Hi & Hl & Hv)|[Hno Hv]].
      * left. exists (S i). split; [now apply Hshift|]. split.
        -- intros [|i'] Hlt; [lia|]. rewrite Hshift. apply Hl. lia.
        -- rewrite Hv. f_equal. lia.
      * right. split; auto. intros [|i]; [|rewrite Hshift; apply Hno].
        intros [ms [Hms Hin]]. discriminate.
Qed.

Lemma set_values_spec n col :
  (forall i k, col_has col i k -> k < n) ->
  exists arr, set_values n col = Ok arr /\ length arr = n /\
    forall k, k < n ->
      (exists i, col_has col i k /\ (forall i', i < i' -> ~ col_has col i' k) /\
                 nth_error arr k = Some (Z.of_nat i)) \/
      ((forall i, ~ col_has col i k) /\ nth_error arr k = Some (-1)%Z).
Proof.
  intros Hr. destruct (set_values_fold n col 0 (repeat (-1)%Z n)) as (arr & H1 & H2 & H3);
    [apply repeat_length|auto|].
  exists arr. split; [exact H1|]. split; auto. intros k Hk.
  destruct (H3 k Hk) as [H|[Hno Hv]]; [left; exact H|right]. split; auto.
  rewrite Hv. now rewrite nth_error_repeat.
Qed.

(** ** zip_star *)
Lemma zip_cols_spec {A} fuel (rows : list (list A)) :
  rows <> [] -> (forall r, In r rows -> length r = fuel) ->
  length (zip_cols fuel rows) = fuel /\
  forall j col, nth_error (zip_cols fuel rows) j = Some col ->
    length col = length rows /\
    forall i r, nth_error rows i = Some r -> nth_error col i = nth_error r j.
Proof.
  revert rows; induction fuel as [|f IH]; intros rows Hne Hlen; cbn [zip_cols].
  - split; auto. intros [|j] col; discriminate.
  - set (hdtl := fun r : list A => match r with [] => None | x :: xs => Some (x, xs) end).
    destruct (mapO hdtl rows) as [l|] eqn:E.
    + apply mapO_nth in E. destruct E as [El En].
      destruct l as [|p l0] eqn:El0; [destruct rows; [congruence|discriminate]|]. rewrite <- El0 in *.
      assert (Hsnd : forall r, In r (map snd l) -> length r = f).
      { intros r Hr. apply in_map_iff in Hr. destruct Hr as [[x xs] [Heq Hin]]. cbn in Heq. subst xs.
        apply In_nth_error in Hin. destruct Hin as [i Hi].
        destruct (nth_error rows i) as [row|] eqn:Er.
        - destruct (En i row Er) as [y [Hy1 Hy2]]. rewrite Hi in Hy1. injection Hy1 as <-.
          apply nth_error_In, Hlen in Er. destruct row; [discriminate|]. cbn in Hy2.
          injection Hy2 as -> ->. cbn in Er. lia.
        - apply nth_error_None in Er. assert (i < length l) by (apply nth_error_Some; congruence). lia. }
      destruct (IH (map snd l)) as [IH1 IH2]; [rewrite El0; discriminate|exact Hsnd|].
      split; [cbn; now rewrite IH1|]. intros [|j] col; cbn [nth_error]; intros H.
      * injection H as <-. rewrite map_length. split; auto. intros i r Hr.
        destruct (En i r Hr) as [y [Hy1 Hy2]]. rewrite nth_error_map, Hy1. cbn.
        destruct r; cbn in Hy2; [discriminate|]. now injection Hy2 as <-.
      * destruct (IH2 j col H) as [H1 H2]. rewrite map_length in H1. split; [lia|].
        intros i r Hr. destruct (En i r Hr) as [y [Hy1 Hy2]].
        assert (H3 := H2 i (snd y)). rewrite nth_error_map, Hy1 in H3. cbn in H3.
        rewrite H3 by auto. destruct r; cbn in Hy2; [discriminate|]. now injection Hy2 as <-.
    + exfalso. clear - E Hlen. induction rows as [|r rows IH]; cbn in E; [discriminate|].
      assert (length r = S f) by (apply Hlen; now left). destruct r; [discriminate|]. cbn in E.
      destruct (mapO hdtl rows); [discriminate|]. apply IH; auto. intros r' Hr. apply Hlen. now right.
Qed.

Lemma zip_star_spec {A} (rows : list (list A)) n :
  rows <> [] -> (forall r, In r rows -> length r = n) ->
  length (zip_star rows) = n /\
  forall j col, nth_error (zip_star rows) j = Some col ->
    length col = length rows /\
    forall i r, nth_error rows i = Some r -> nth_error col i = nth_error r j.
Proof.
  intros Hne Hlen. unfold zip_star. destruct rows as [|r rows]; [congruence|].
  assert (length r = n) as -> by (apply Hlen; now left).
  now apply zip_cols_spec.
Qed.

Lemma set_values_blocks_spec cols bs (P : list (option (list nat)) -> block -> list Z -> Prop) :
  length cols = length bs ->
  (forall j c b, nth_error cols j = Some c -> nth_error bs j = Some b ->
     exists v, set_values (blen b) c = Ok v /\ P c b v) ->
  exists vs, set_values_blocks cols bs = Ok vs /\ length vs = length bs /\
    forall j c b, nth_error cols j = Some c -> nth_error bs j = Some b ->
      exists v, nth_error vs j = Some v /\ P c b v.
Proof.
  revert bs; induction cols as [|c cols IH]; intros [|b bs]; cbn [length]; intros Hl H; try discriminate.
  - exists []. cbn. repeat split; auto. intros [|j]; discriminate.
  - destruct (H 0 c b eq_refl eq_refl) as (v & Hv & HP).
    destruct (IH bs) as (vs & H1 & H2 & H3); [lia|intros j; apply (H (S j))|].
    exists (v :: vs). cbn [set_values_blocks]. rewrite Hv. cbn [bind]. rewrite H1. cbn [bind].
    repeat split; [cbn; lia|]. intros [|j] c' b'; cbn; intros Hc Hb.
    + injection Hc as <-. injection Hb as <-. eauto.
    + eauto.
Qed.

(** ** C05, first half: values stored by cell_sets_to_data *)
Lemma cell_sets_to_data_values {F} (m : mesh F) dn :
  cell_sets m <> [] -> sets_fit (dvals (cell_sets m)) (cells m) ->
  exists f,
    cell_sets_to_data dn m = Ok (Mesh (points m) (cells m) (point_data m)
       (dset (match dn with Some n => n | None => join "-" (dkeys (cell_sets m)) end)
             (map AInt f) (cell_data m)) (point_sets m) []) /\
    Forall2 (fun v b => length v = blen b) f (cells m) /\
    forall j b k, nth_error (cells m) j = Some b -> k < blen b ->
      exists v z, nth_error f j = Some v /\ length v = blen b /\ nth_error v k = Some z /\
        ((exists i, last_set_containing (dvals (cell_sets m)) j k i /\ z = Z.of_nat i) \/
         (in_no_set (dvals (cell_sets m)) j k /\ z = (-1)%Z)).
Proof.
  intros Hne Hfit. set (fam := dvals (cell_sets m)) in *.
  assert (Hfam : fam <> []) by (unfold fam; destruct (cell_sets m); [congruence|discriminate]).
  destruct (zip_star_spec fam (length (cells m)) Hfam) as [Hzl Hz]; [intros r Hr; now apply Hfit|].
  assert (Hcol : forall j c i k, nth_error (zip_star fam) j = Some c ->
            (col_has c i k <-> exists s, nth_error fam i = Some s /\ member s j k)).
  { intros j c i k Hc. destruct (Hz j c Hc) as [Hlen Hnth]. split.
    - intros [ms [H1 H2]]. destruct (nth_error fam i) as [s|] eqn:Es.
      + exists s. split; auto. rewrite (Hnth i s Es) in H1. exists ms. auto.
      + apply nth_error_None in Es. assert (i < length c) by (apply nth_error_Some; congruence). lia.
    - intros [s [Hs [ms [H1 H2]]]]. exists ms. rewrite (Hnth i s Hs). auto. }
  destruct (set_values_blocks_spec (zip_star fam) (cells m)
    (fun c b v => length v = blen b /\ forall k, k < blen b ->
      (exists i, col_has c i k /\ (forall i', i < i' -> ~ col_has c i' k) /\
                 nth_error v k = Some (Z.of_nat i)) \/
      ((forall i, ~ col_has c i k) /\ nth_error v k = Some (-1)%Z))) as (f & Hf1 & Hf2 & Hf3); [auto| |].
  { intros j c b Hc Hb. destruct (set_values_spec (blen b) c) as (v & H1 & H2 & H3); [|eauto].
    intros i k Hik. apply (Hcol j c i k Hc) in Hik. destruct Hik as [s [Hs Hm]].
    destruct (Hfit s (nth_error_In _ _ Hs)) as [_ Hr]. eauto. }
  exists f. split; [|split].
  2: { apply Forall2_nth_error; auto. intros j v b Hv Hb.
       destruct (nth_error (zip_star fam) j) as [c|] eqn:Ec.
       - destruct (Hf3 j c b Ec Hb) as (v' & Hv' & Hl & _). congruence.
       - apply nth_error_None in Ec.
         assert (j < length (cells m)) by (apply nth_error_Some; congruence). lia. }
  - unfold cell_sets_to_data. destruct (cell_sets m) as [|x xs] eqn:E; [congruence|].
    fold fam. rewrite Hf1. reflexivity.
  - intros j b k Hb Hk. destruct (nth_error (zip_star fam) j) as [c|] eqn:Ec.
    + destruct (Hf3 j c b Ec Hb) as (v & Hv & Hl & Hspec). exists v.
      destruct (Hspec k Hk) as [(i & Hi & Hlast & Hz')|[Hno Hz']].
      * exists (Z.of_nat i). repeat split; auto. left. exists i. split; auto. split.
        -- now apply (Hcol j c i k Ec).
        -- intros i' s Hlt Hs Hm. apply (Hlast i' Hlt). apply (Hcol j c i' k Ec). eauto.
      * exists (-1)%Z. repeat split; auto. right. split; auto.
        intros i s Hs Hm. apply (Hno i). apply (Hcol j c i k Ec). eauto.
    + apply nth_error_None in Ec. assert (j < length (cells m)) by (apply nth_error_Some; congruence). lia.
Qed.

(** ** naming *)
Lemma dedup_from_id seen l :
  NoDup l -> (forall x, In x l -> ~ In x seen) -> dedup_from seen l = l.
Proof.
  revert seen; induction l as [|x xs IH]; intros seen Hnd Hs; cbn; auto.
  inversion Hnd as [|? ? Hni Hnd']; subst.
  rewrite (proj2 (smem_false x seen)) by (apply Hs; now left). f_equal. apply IH; auto.
  intros y Hy Hin. apply in_app_iff in Hin. destruct Hin as [Hin|[->|[]]]; [|contradiction].
  apply (Hs y); [now right|auto].
Qed.
Lemma dedup_id l : NoDup l -> dedup l = l.
Proof. intros H. apply dedup_from_id; auto. Qed.

Lemma dedup_from_NoDup seen l : NoDup (dedup_from seen l) /\ forall x, In x (dedup_from seen l) -> ~ In x seen.
Proof.
  revert seen; induction l as [|x xs IH]; intros seen; cbn; [split; [constructor|tauto]|].
  destruct (smem x seen) eqn:E; auto. apply smem_false in E. destruct (IH (seen ++ [x])) as [H1 H2].
  split.
  - constructor; auto. intros Hin. apply (H2 x Hin). apply in_app_iff. right. now left.
  - intros y [->|Hy]; auto. intros Hin. apply (H2 y Hy). apply in_app_iff. auto.
Qed.
Lemma dedup_NoDup l : NoDup (dedup l).
Proof. apply dedup_from_NoDup. Qed.

Lemma fold_dset_fresh {A V} (f : A -> V) (nts : list (string * A)) d :
  NoDup (map fst nts) -> (forall x, In x (map fst nts) -> ~ In x (dkeys d)) ->
  fold_left (fun acc nt => dset (fst nt) (f (snd nt)) acc) nts d =
  d ++ map (fun nt => (fst nt, f (snd nt))) nts.
Proof.
  revert d; induction nts as [|[n t] nts IH]; intros d Hnd Hf; cbn; [now rewrite app_nil_r|].
  inversion Hnd as [|? ? Hni Hnd']; subst. rewrite dset_notin by (apply Hf; now left).
  rewrite IH; auto.
  - now rewrite <- app_assoc.
  - intros x Hx Hin. unfold dkeys in Hin. rewrite map_app in Hin. apply in_app_iff in Hin.
    destruct Hin as [Hin|[Heq|[]]].
    + apply (Hf x); [now right|exact Hin].
    + cbn in Heq, Hni. subst. contradiction.
Qed.

Lemma dget_fold_dset {A V} (f : A -> V) (nts : list (string * A)) d x :
  NoDup (map fst nts) ->
  dget x (fold_left (fun acc nt => dset (fst nt) (f (snd nt)) acc) nts d) =
  match dget x nts with Some t => Some (f t) | None => dget x d end.
Proof.
  revert d; induction nts as [|[n t] nts IH]; intros d Hnd; cbn [fold_left dget fst snd]; auto.
  inversion Hnd as [|? ? Hni Hnd']; subst. rewrite IH by auto. rewrite dget_dset.
  destruct (String.eqb_spec x n) as [->|Hne]; auto.
  rewrite (proj2 (dget_None n nts) Hni). reflexivity.
Qed.

Lemma mapO_int_values {F} (f : list (list Z)) :
  mapO (@int_values F) (map AInt f) = Some f.
Proof. induction f as [|x xs IH]; cbn; auto. now rewrite IH. Qed.

Lemma sorted_seq_Z n s : StronglySorted Z.lt (map Z.of_nat (seq s n)).
Proof.
  revert s; induction n as [|n IH]; intros s; cbn; constructor; auto.
  apply Forall_forall. intros z Hz. apply in_map_iff in Hz. destruct Hz as [i [<- Hi]].
  apply in_seq in Hi. lia.
Qed.

Lemma combine_map_r {A B C} (g : B -> C) (l1 : list A) l2 :
  combine l1 (map g l2) = map (fun p => (fst p, g (snd p))) (combine l1 l2).
Proof. revert l2; induction l1 as [|a l1 IH]; intros [|b l2]; cbn; auto. now rewrite IH. Qed.

Lemma nth_error_dict_split {V} (d : dict V) i name s :
  nth_error d i = Some (name, s) -> nth_error (dkeys d) i = Some name /\ nth_error (dvals d) i = Some s.
Proof. intros H. unfold dkeys, dvals. rewrite !nth_error_map, H. auto. Qed.

(** ** C05, round trip *)
Lemma cell_sets_roundtrip {F} (m : mesh F) :
  cell_sets m <> [] ->
  sets_fit (dvals (cell_sets m)) (cells m) ->
  partitions (dvals (cell_sets m)) (cells m) ->
  NoDup (dkeys (cell_sets m)) -> Forall no_dash (dkeys (cell_sets m)) ->
  ~ In (join "-" (dkeys (cell_sets m))) (dkeys (cell_data m)) ->
  exists m1 sets,
    cell_sets_to_data None m = Ok m1 /\
    cell_data_to_sets (join "-" (dkeys (cell_sets m))) m1 =
      Ok (Mesh (points m) (cells m) (point_data m) (cell_data m) (point_sets m) sets) /\
    dkeys sets = dkeys (cell_sets m) /\
    forall name s, dget name (cell_sets m) = Some s ->
      exists s', dget name sets = Some s' /\ length s' = length (cells m) /\
        (forall j, j < length (cells m) ->
           exists l, nth_error s' j = Some (Some l) /\ StronglySorted lt l) /\
        (forall j k, member s' j k <-> member s j k).
Proof.
  intros Hne Hfit [Hpart Hnonempty] Hnd Hdash Hfresh.
  destruct (cell_sets_to_data_values m None Hne Hfit) as (f & Hf & Hfl & Hval).
  set (fam := dvals (cell_sets m)) in *. set (names := dkeys (cell_sets m)) in *.
  assert (Hlen : length names = length fam) by (unfold names, fam, dkeys, dvals; now rewrite !map_length).
  (* value of each cell *)
  assert (Hval' : forall j v k z, nth_error f j = Some v -> nth_error v k = Some z ->
            exists i s, z = Z.of_nat i /\ nth_error fam i = Some s /\ member s j k /\
              forall i' s', nth_error fam i' = Some s' -> member s' j k -> i' = i).
  { intros j v k z Hv Hk. destruct (Forall2_nth_error_l _ _ _ Hfl j v Hv) as [b [Hb Hvb]].
    assert (Hkl : k < blen b) by (rewrite <- Hvb; apply nth_error_Some; congruence).
    destruct (Hval j b k Hb Hkl) as (v' & z' & H1 & H2 & H3 & H4).
    assert (v' = v) as -> by congruence. assert (z' = z) as -> by congruence.
    destruct (Hpart j b k Hb Hkl) as (i & (s & Hs & Hm) & Huniq).
    destruct H4 as [(i' & [(s' & Hs' & Hm') _] & ->)|[Hno _]].
    - assert (i' = i) as -> by eauto. exists i, s. repeat split; auto.
    - exfalso. eapply Hno; eauto. }
  (* conversely a member has its value *)
  assert (Hmem : forall i s j k, nth_error fam i = Some s -> member s j k ->
            exists v, nth_error f j = Some v /\ nth_error v k = Some (Z.of_nat i)).
  { intros i s j k Hs Hm. destruct (Hfit s (nth_error_In _ _ Hs)) as [Hsl Hsr].
    assert (Hj : j < length (cells m)).
    { destruct Hm as [ms [Hms _]]. rewrite <- Hsl. apply nth_error_Some. congruence. }
    destruct (nth_error (cells m) j) as [b|] eqn:Eb; [|apply nth_error_None in Eb; lia].
    assert (Hk : k < blen b) by eauto.
    destruct (Hval j b k Eb Hk) as (v & z & H1 & H2 & H3 & _).
    destruct (Hval' j v k z H1 H3) as (i' & s' & -> & _ & _ & Hu).
    exists v. split; auto. rewrite (Hu i s Hs Hm). exact H3. }
  assert (Htags : zunique (concat f) = map Z.of_nat (seq 0 (length fam))).
  { apply StronglySorted_Zlt_ext; [apply zunique_sorted|apply sorted_seq_Z|].
    intros z. rewrite zunique_In, in_concat, in_map_iff. split.
    - intros [v [Hv Hz]]. apply In_nth_error in Hv. destruct Hv as [j Hj].
      apply In_nth_error in Hz. destruct Hz as [k Hk].
      destruct (Hval' j v k z Hj Hk) as (i & s & -> & Hs & _). exists i. split; auto.
      apply in_seq. split; [lia|]. apply nth_error_Some. cbn. congruence.
    - intros [i [<- Hi]]. apply in_seq in Hi. destruct (nth_error fam i) as [s|] eqn:Es;
        [|apply nth_error_None in Es; lia].
      destruct (Hnonempty s (nth_error_In _ _ Es)) as (j & k & Hm).
      destruct (Hmem i s j k Es Hm) as (v & Hv & Hk).
      exists v. split; eapply nth_error_In; eauto. }
  assert (Hnames : dedup (split_char "-" (join "-" names)) = names).
  { change "-"%string with (String "-" "") at 1. rewrite split_join_char.
    - now apply dedup_id.
    - intros E. apply Hne. unfold names, dkeys in E. now apply map_eq_nil in E.
    - apply forallb_forall. intros x Hx. rewrite Forall_forall in Hdash.
      apply Hdash in Hx. unfold no_dash in Hx. now rewrite Hx. }
  eexists. exists (map (fun nt => (fst nt, map (fun d => Some (where_ (Z.eqb (Z.of_nat (snd nt))) d)) f))
                       (combine names (seq 0 (length fam)))).
  split; [exact Hf|]. split; [|split].
  - unfold cell_data_to_sets. cbn [cell_data points cells point_data point_sets cell_sets].
    rewrite dget_dset_same, mapO_int_values.
    assert (Hfne : f <> []).
    { intros ->. cbn in Htags. destruct fam as [|x xs] eqn:E; [|discriminate].
      apply Hne. unfold fam, dvals in E. now apply map_eq_nil in E. }
    destruct f as [|f0 fs] eqn:Ef; [congruence|]. rewrite <- Ef in *. rewrite Htags.
    unfold tag_names. rewrite Hnames, map_length, seq_length, Hlen, Nat.eqb_refl.
    rewrite dset_notin, ddel_app_last by auto.
    rewrite (fold_dset_fresh (fun t => map (fun d => Some (where_ (Z.eqb t) d)) f)).
    + f_equal. f_equal. cbn [app]. rewrite combine_map_r, map_map. reflexivity.
    + rewrite map_fst_combine; auto. now rewrite map_length, seq_length.
    + auto.
  - unfold dkeys. rewrite map_map. cbn [fst]. rewrite map_fst_combine; [reflexivity|].
    now rewrite seq_length.
  - intros name s Hs. apply dget_In, In_nth_error in Hs. destruct Hs as [i Hi].
    apply nth_error_dict_split in Hi. fold names fam in Hi. destruct Hi as [Hin His].
    exists (map (fun d => Some (where_ (Z.eqb (Z.of_nat i)) d)) f).
    assert (Hfl' : length f = length (cells m)) by (eapply Forall2_length; eauto).
    split; [|split; [now rewrite map_length|split]].
    + apply In_dget.
      * unfold dkeys. rewrite map_map. cbn [fst]. rewrite map_fst_combine; [auto|].
        now rewrite seq_length.
      * apply in_map_iff. exists (name, i). split; auto. eapply nth_error_In with (n := i).
        apply nth_error_combine. split; auto.
        assert (i < length fam) by (apply nth_error_Some; congruence).
        rewrite nth_error_nth' with (d := 0) by (now rewrite seq_length). now rewrite seq_nth.
    + intros j Hj. rewrite nth_error_map. destruct (nth_error f j) as [v|] eqn:Ev.
      * cbn. eexists. split; [reflexivity|]. apply where_sorted.
      * apply nth_error_None in Ev. lia.
    + intros j k. split.
      * intros [ms [Hms Hk]]. rewrite nth_error_map in Hms.
        destruct (nth_error f j) as [v|] eqn:Ev; [|discriminate]. cbn in Hms. injection Hms as <-.
        apply where_spec in Hk. destruct Hk as [z [Hz Heq]]. apply Z.eqb_eq in Heq. subst z.
        destruct (Hval' j v k _ Ev Hz) as (i' & s' & Heq & Hs' & Hm & _).
        assert (i' = i) as -> by lia. assert (s' = s) as -> by congruence. auto.
      * intros Hm. destruct (Hmem i s j k His Hm) as (v & Hv & Hk).
        eexists. split; [rewrite nth_error_map, Hv; reflexivity|].
        apply where_spec. exists (Z.of_nat i). split; auto. apply Z.eqb_refl.
Qed.

(** With sorted members and an entry for every block the mesh itself is restored. *)
Lemma cell_sets_roundtrip_exact {F} (m : mesh F) :
  cell_sets m <> [] ->
  sets_fit (dvals (cell_sets m)) (cells m) ->
  partitions (dvals (cell_sets m)) (cells m) ->
  NoDup (dkeys (cell_sets m)) -> Forall no_dash (dkeys (cell_sets m)) ->
  ~ In (join "-" (dkeys (cell_sets m))) (dkeys (cell_data m)) ->
  (forall s e, In s (dvals (cell_sets m)) -> In e s -> exists l, e = Some l /\ StronglySorted lt l) ->
  exists m1, cell_sets_to_data None m = Ok m1 /\
    cell_data_to_sets (join "-" (dkeys (cell_sets m))) m1 = Ok m.
Proof.
  intros Hne Hfit Hpart Hnd Hdash Hfresh Hcanon.
  destruct (cell_sets_roundtrip m Hne Hfit Hpart Hnd Hdash Hfresh) as (m1 & sets & H1 & H2 & H3 & H4).
  exists m1. split; auto. rewrite H2. f_equal.
  assert (sets = cell_sets m) as ->; [|now destruct m].
  assert (Hnd' : NoDup (dkeys sets)) by (now rewrite H3).
  assert (Hpt : forall name s, In (name, s) (cell_sets m) -> dget name sets = Some s).
  { intros name s Hin. assert (Hg := Hin). apply In_dget in Hg; auto.
    destruct (H4 name s Hg) as (s' & Hs' & Hl & Hsort & Hmem). rewrite Hs'. f_equal.
    assert (Hsin : In s (dvals (cell_sets m))) by (change s with (snd (name, s)); now apply in_map).
    apply nth_error_ext. intros j. destruct (Hfit s Hsin) as [Hsl _].
    destruct (le_lt_dec (length (cells m)) j) as [Hge|Hlt].
    - rewrite (proj2 (nth_error_None s' j)), (proj2 (nth_error_None s j)); auto; lia.
    - destruct (Hsort j Hlt) as (l' & Hl' & Hss'). rewrite Hl'.
      destruct (nth_error s j) as [e|] eqn:Ee; [|apply nth_error_None in Ee; lia].
      destruct (Hcanon s e Hsin (nth_error_In _ _ Ee)) as (l & -> & Hss). f_equal. f_equal.
      apply StronglySorted_lt_ext; auto. intros k. split; intros Hk.
      + destruct (proj1 (Hmem j k)) as [ms [Hms Hk']]; [exists l'; auto|]. congruence.
      + destruct (proj2 (Hmem j k)) as [ms [Hms Hk']]; [exists l; auto|]. congruence. }
  apply nth_error_ext. intros i.
  assert (Hk : forall i, option_map fst (nth_error sets i) = option_map fst (nth_error (cell_sets m) i)).
  { intros i'. rewrite <- !nth_error_map. unfold dkeys in H3. now rewrite H3. }
  specialize (Hk i). destruct (nth_error (cell_sets m) i) as [[name s]|] eqn:Em;
    destruct (nth_error sets i) as [[name' s']|] eqn:Es; cbn in Hk; try discriminate; auto.
  injection Hk as ->. f_equal. f_equal.
  apply nth_error_In, In_dget in Es; auto. apply nth_error_In, Hpt in Em. congruence.
Qed.

(** ** C06 points *)
Lemma point_sets_to_data_values {F} (m : mesh F) jc :
  point_sets m <> [] ->
  (forall s k, In s (dvals (point_sets m)) -> In k s -> k < length (points m)) ->
  exists f,
    point_sets_to_data jc m = Ok (Mesh (points m) (cells m)
       (dset (join jc (dkeys (point_sets m))) (AInt f) (point_data m))
       (cell_data m) [] (cell_sets m)) /\
    length f = length (points m) /\
    forall k, k < length (points m) ->
      (exists i s, nth_error (dvals (point_sets m)) i = Some s /\ In k s /\
          (forall i' s', i < i' -> nth_error (dvals (point_sets m)) i' = Some s' -> ~ In k s') /\
          nth_error f k = Some (Z.of_nat i)) \/
      ((forall s, In s (dvals (point_sets m)) -> ~ In k s) /\ nth_error f k = Some (-1)%Z).
Proof.
  intros Hne Hr. set (fam := dvals (point_sets m)) in *.
  assert (Hcol : forall i k, col_has (map Some fam) i k <-> exists s, nth_error fam i = Some s /\ In k s).
  { intros i k. unfold col_has. rewrite nth_error_map. split.
    - intros [ms [H1 H2]]. destruct (nth_error fam i); [|discriminate]. injection H1 as ->. eauto.
    - intros [s [H1 H2]]. exists s. rewrite H1. auto. }
  destruct (set_values_spec (length (points m)) (map Some fam)) as (f & H1 & H2 & H3).
  { intros i k Hc. apply Hcol in Hc. destruct Hc as [s [Hs Hk]]. apply nth_error_In in Hs. eauto. }
  exists f. split; [|split; auto].
  - unfold point_sets_to_data. destruct (point_sets m) eqn:E; [congruence|].
    fold fam. rewrite H1. reflexivity.
  - intros k Hk. destruct (H3 k Hk) as [(i & Hi & Hlast & Hv)|[Hno Hv]].
    + left. apply Hcol in Hi. destruct Hi as [s [Hs Hin]]. exists i, s. repeat split; auto.
      intros i' s' Hlt Hs' Hin'. apply (Hlast i' Hlt). apply Hcol. eauto.
    + right. split; auto. intros s Hs Hin. apply In_nth_error in Hs. destruct Hs as [i Hi].
      apply (Hno i). apply Hcol. eauto.
Qed.

Lemma point_sets_roundtrip {F} (m : mesh F) :
  point_sets m <> [] ->
  (forall s k, In s (dvals (point_sets m)) -> In k s -> k < length (points m)) ->
  (forall k, k < length (points m) -> exists i,
      (exists s, nth_error (dvals (point_sets m)) i = Some s /\ In k s) /\
      forall i' s, nth_error (dvals (point_sets m)) i' = Some s -> In k s -> i' = i) ->
  (forall s, In s (dvals (point_sets m)) -> s <> []) ->
  NoDup (dkeys (point_sets m)) -> Forall no_dash (dkeys (point_sets m)) ->
  ~ In (join "-" (dkeys (point_sets m))) (dkeys (point_data m)) ->
  exists m1 sets,
    point_sets_to_data "-" m = Ok m1 /\
    point_data_to_sets (join "-" (dkeys (point_sets m))) m1 =
      Ok (Mesh (points m) (cells m) (point_data m) (cell_data m) sets (cell_sets m)) /\
    dkeys sets = dkeys (point_sets m) /\
    forall name s, dget name (point_sets m) = Some s ->
      exists s', dget name sets = Some s' /\ StronglySorted lt s' /\
        forall k, In k s' <-> In k s.
Proof.
  intros Hne Hr Hpart Hnonempty Hnd Hdash Hfresh.
  destruct (point_sets_to_data_values m "-" Hne Hr) as (f & Hf & Hfl & Hval).
  set (fam := dvals (point_sets m)) in *. set (names := dkeys (point_sets m)) in *.
  assert (Hlen : length names = length fam) by (unfold names, fam, dkeys, dvals; now rewrite !map_length).
  assert (Hval' : forall k z, nth_error f k = Some z ->
            exists i s, z = Z.of_nat i /\ nth_error fam i = Some s /\ In k s /\
              forall i' s', nth_error fam i' = Some s' -> In k s' -> i' = i).
  { intros k z Hk.
    assert (Hkl : k < length (points m)) by (rewrite <- Hfl; apply nth_error_Some; congruence).
    destruct (Hpart k Hkl) as (i & (s & Hs & Hm) & Huniq).
    destruct (Hval k Hkl) as [(i' & s' & Hs' & Hm' & _ & Hz)|[Hno _]].
    - assert (i' = i) as -> by eauto. exists i, s. repeat split; auto. congruence.
    - exfalso. apply nth_error_In in Hs. eapply Hno; eauto. }
  assert (Hmem : forall i s k, nth_error fam i = Some s -> In k s -> nth_error f k = Some (Z.of_nat i)).
  { intros i s k Hs Hm. assert (Hk : k < length (points m)) by (apply nth_error_In in Hs; eauto).
    destruct (nth_error f k) as [z|] eqn:Ez; [|apply nth_error_None in Ez; lia].
    destruct (Hval' k z Ez) as (i' & s' & -> & _ & _ & Hu). now rewrite (Hu i s Hs Hm). }
  assert (Htags : zunique f = map Z.of_nat (seq 0 (length fam))).
  { apply StronglySorted_Zlt_ext; [apply zunique_sorted|apply sorted_seq_Z|].
    intros z. rewrite zunique_In, in_map_iff. split.
    - intros Hz. apply In_nth_error in Hz. destruct Hz as [k Hk].
      destruct (Hval' k z Hk) as (i & s & -> & Hs & _). exists i. split; auto.
      apply in_seq. split; [lia|]. apply nth_error_Some. cbn. congruence.
    - intros [i [<- Hi]]. apply in_seq in Hi. destruct (nth_error fam i) as [s|] eqn:Es;
        [|apply nth_error_None in Es; lia].
      assert (s <> []) by (eapply Hnonempty, nth_error_In; eauto).
      destruct s as [|k s]; [congruence|].
      eapply nth_error_In. eapply Hmem; eauto. now left. }
  assert (Hnames : dedup (split_char "-" (join "-" names)) = names).
  { change "-"%string with (String "-" "") at 1. rewrite split_join_char.
    - now apply dedup_id.
    - intros E. apply Hne. unfold names, dkeys in E. now apply map_eq_nil in E.
    - apply forallb_forall. intros x Hx. rewrite Forall_forall in Hdash.
      apply Hdash in Hx. unfold no_dash in Hx. now rewrite Hx. }
  eexists. exists (map (fun nt => (fst nt, where_ (Z.eqb (Z.of_nat (snd nt))) f))
                       (combine names (seq 0 (length fam)))).
  split; [exact Hf|]. split; [|split].
  - unfold point_data_to_sets. cbn [cell_data points cells point_data point_sets cell_sets].
    rewrite dget_dset_same. cbn [int_entries]. rewrite Htags.
    unfold tag_names. rewrite Hnames, map_length, seq_length, Hlen, Nat.eqb_refl.
    rewrite dset_notin, ddel_app_last by auto.
    rewrite (fold_dset_fresh (fun t => where_ (Z.eqb t) f)).
    + f_equal. f_equal. cbn [app]. rewrite combine_map_r, map_map. reflexivity.
    + rewrite map_fst_combine; auto. now rewrite map_length, seq_length.
    + auto.
  - unfold dkeys. rewrite map_map. cbn [fst]. rewrite map_fst_combine; [reflexivity|].
    now rewrite seq_length.
  - intros name s Hs. apply dget_In, In_nth_error in Hs. destruct Hs as [i Hi].
    apply nth_error_dict_split in Hi. fold names fam in Hi. destruct Hi as [Hin His].
    exists (where_ (Z.eqb (Z.of_nat i)) f). split; [|split; [apply where_sorted|]].
    + apply In_dget.
      * unfold dkeys. rewrite map_map. cbn [fst]. rewrite map_fst_combine; [auto|].
        now rewrite seq_length.
      * apply in_map_iff. exists (name, i). split; auto. eapply nth_error_In with (n := i).
        apply nth_error_combine. split; auto.
        assert (i < length fam) by (apply nth_error_Some; congruence).
        rewrite nth_error_nth' with (d := 0) by (now rewrite seq_length). now rewrite seq_nth.
    + intros k. rewrite where_spec. split.
      * intros [z [Hz Heq]]. apply Z.eqb_eq in Heq. subst z.
        destruct (Hval' k _ Hz) as (i' & s' & Heq & Hs' & Hm & _).
        assert (i' = i) as -> by lia. assert (s' = s) as -> by congruence. auto.
      * intros Hm. exists (Z.of_nat i). split; [eauto|apply Z.eqb_refl].
Qed.

(** ** C07 *)
Lemma tag_names_spec key fb tags :
  (forall a b, fb a = fb b -> a = b) -> NoDup tags ->
  NoDup (tag_names key fb tags) /\ length (tag_names key fb tags) = length tags.
Proof.
  intros Hinj Hnd. unfold tag_names.
  destruct (Nat.eqb_spec (length (dedup (split_char "-" key))) (length tags)) as [E|E].
  - split; auto. apply dedup_NoDup.
  - rewrite map_length. split; auto. clear E. induction Hnd as [|x l Hni Hnd IH]; cbn; constructor; auto.
    intros Hin. apply in_map_iff in Hin. destruct Hin as [y [Hy Hin]]. apply Hinj in Hy. now subst.
Qed.

Lemma str_app_inj_l (p a b : string) : (p ++ a)%string = (p ++ b)%string -> a = b.
Proof. induction p as [|c p IH]; cbn; auto. intros H. injection H as H. auto. Qed.

Lemma cell_data_to_sets_cover {F} (m : mesh F) key data :
  dget key (cell_data m) = Some (map AInt data) -> data <> [] -> NoDup (dkeys (cell_data m)) ->
  exists m' names,
    cell_data_to_sets key m = Ok m' /\
    points m' = points m /\ cells m' = cells m /\ point_data m' = point_data m /\
    point_sets m' = point_sets m /\
    dget key (cell_data m') = None /\
    (forall k, k <> key -> dget k (cell_data m') = dget k (cell_data m)) /\
    NoDup names /\ length names = length (zunique (concat data)) /\
    (forall i name v, nth_error names i = Some name ->
       nth_error (zunique (concat data)) i = Some v ->
       exists s, dget name (cell_sets m') = Some s /\ length s = length data /\
         forall j k, member s j k <->
           exists d, nth_error data j = Some d /\ nth_error d k = Some v) /\
    (forall name, ~ In name names -> dget name (cell_sets m') = dget name (cell_sets m)).
Proof.
  intros Hget Hne Hnd.
  set (tags := zunique (concat data)).
  set (fb := fun t => ("set-" ++ key ++ "-" ++ str_of_Z t)%string).
  assert (Hinj : forall a b, fb a = fb b -> a = b).
  { intros a b H. unfold fb in H. apply str_app_inj_l, str_app_inj_l, str_app_inj_l in H.
    now apply str_of_Z_inj. }
  destruct (tag_names_spec key fb tags Hinj (zunique_NoDup _)) as [Hn1 Hn2].
  set (names := tag_names key fb tags) in *.
  eexists. exists names. split.
  { unfold cell_data_to_sets. rewrite Hget, mapO_int_values.
    destruct data as [|d0 ds] eqn:Ed; [congruence|]. rewrite <- Ed in *. reflexivity. }
  cbn [points cells point_data cell_data point_sets cell_sets].
  fold tags. fold fb. fold names.
  do 4 (split; [reflexivity|]). split; [now apply dget_ddel_same|].
  split; [intros k Hk; now apply dget_ddel_other|]. split; [auto|]. split; [auto|]. split.
  - intros i name v Hi Hv.
    rewrite (dget_fold_dset (fun t => map (fun d => Some (where_ (Z.eqb t) d)) data)) by (rewrite map_fst_combine; auto).
    assert (Hg : dget name (combine names tags) = Some v).
    { apply In_dget; [unfold dkeys; rewrite map_fst_combine; auto|].
      eapply nth_error_In with (n := i). now apply nth_error_combine. }
    rewrite Hg. eexists. split; [reflexivity|]. split; [apply map_length|].
    intros j k. unfold member. rewrite nth_error_map. split.
    + intros [ms [Hms Hk]]. destruct (nth_error data j) as [d|]; [|discriminate].
      cbn in Hms. injection Hms as <-. apply where_spec in Hk. destruct Hk as [z [Hz Heq]].
      apply Z.eqb_eq in Heq. subst z. eauto.
    + intros [d [Hd Hk]]. rewrite Hd. cbn. eexists. split; [reflexivity|].
      apply where_spec. exists v. split; auto. apply Z.eqb_refl.
  - intros name Hni. rewrite (dget_fold_dset (fun t => map (fun d => Some (where_ (Z.eqb t) d)) data)) by (rewrite map_fst_combine; auto).
    destruct (dget name (combine names tags)) eqn:E; auto.
    apply dget_Some_key in E. unfold dkeys in E. rewrite map_fst_combine in E by auto. contradiction.
Qed.

(** The cover theorem with the distinct values characterised. *)
Lemma cell_data_to_sets_cover_values {F} (m : mesh F) key data :
  dget key (cell_data m) = Some (map AInt data) -> data <> [] -> NoDup (dkeys (cell_data m)) ->
  exists m' names tags,
    cell_data_to_sets key m = Ok m' /\
    points m' = points m /\ cells m' = cells m /\ point_data m' = point_data m /\
    point_sets m' = point_sets m /\
    dget key (cell_data m') = None /\
    (forall k, k <> key -> dget k (cell_data m') = dget k (cell_data m)) /\
    StronglySorted Z.lt tags /\
    (forall v, In v tags <-> exists d, In d data /\ In v d) /\
    NoDup names /\ length names = length tags /\
    (forall i name v, nth_error names i = Some name -> nth_error tags i = Some v ->
       exists s, dget name (cell_sets m') = Some s /\ length s = length data /\
         forall j k, member s j k <->
           exists d, nth_error data j = Some d /\ nth_error d k = Some v) /\
    (forall name, ~ In name names -> dget name (cell_sets m') = dget name (cell_sets m)).
Proof.
  intros H1 H2 H3. destruct (cell_data_to_sets_cover m key data H1 H2 H3) as (m' & names & H).
  exists m', names, (zunique (concat data)). decompose [and] H. repeat (split; [assumption|]).
  split; [apply zunique_sorted|]. split.
  - intros v. rewrite zunique_In, in_concat. reflexivity.
  - repeat (split; [assumption|]). assumption.
Qed.
