(** Lemmas about Lib/Base.v. *)
From Verif.Lib Require Import Base.

(** ** dictionaries *)
Lemma dget_dset_same {V} k (v : V) d : dget k (dset k v d) = Some v.
Proof.
  induction d as [|[k' v'] d IH]; cbn; [now rewrite String.eqb_refl|].
  destruct (String.eqb k k') eqn:E; cbn; rewrite E; auto.
Qed.

Lemma dget_dset_other {V} k k2 (v : V) d : k <> k2 -> dget k (dset k2 v d) = dget k d.
Proof.
  intros Hne; induction d as [|[k' v'] d IH]; cbn.
  - now rewrite (proj2 (String.eqb_neq _ _) Hne).
  - destruct (String.eqb k2 k') eqn:E; cbn.
    + apply String.eqb_eq in E; subst k'. now rewrite (proj2 (String.eqb_neq _ _) Hne).
    + destruct (String.eqb k k'); auto.
Qed.

Lemma dget_dset {V} k k2 (v : V) d :
  dget k (dset k2 v d) = if String.eqb k k2 then Some v else dget k d.
Proof.
  destruct (String.eqb_spec k k2) as [->|Hne]; [apply dget_dset_same | now apply dget_dset_other].
Qed.

Lemma dget_In {V} k (v : V) d : dget k d = Some v -> In (k, v) d.
Proof.
  induction d as [|[k' v'] d IH]; cbn; [discriminate|].
  destruct (String.eqb_spec k k') as [->|Hne]; intros H.
  - injection H as ->. now left.
  - right; auto.
Qed.

Lemma dget_None {V} k (d : dict V) : dget k d = None <-> ~ In k (dkeys d).
Proof.
  induction d as [|[k' v'] d IH]; cbn; [tauto|].
  destruct (String.eqb_spec k k') as [->|Hne].
  - split; [discriminate|]. intros H; exfalso; auto.
  - rewrite IH. split; intros H; [|tauto]. intros [?|?]; [subst; auto|auto].
Qed.

Lemma dget_Some_key {V} k (v : V) d : dget k d = Some v -> In k (dkeys d).
Proof. intros H. apply dget_In in H. change k with (fst (k, v)). now apply in_map. Qed.

Lemma In_dget {V} k (v : V) d : NoDup (dkeys d) -> In (k, v) d -> dget k d = Some v.
Proof.
  induction d as [|[k' v'] d IH]; cbn; [tauto|].
  intros Hnd Hin. inversion Hnd as [|? ? Hni Hnd' E]; subst.
  destruct Hin as [Heq|Hin].
  - injection Heq as -> ->. now rewrite String.eqb_refl.
  - destruct (String.eqb_spec k k') as [->|Hne]; auto.
    exfalso. apply Hni. change k' with (fst (k', v)). now apply in_map.
Qed.

Lemma dkeys_dset {V} k (v : V) d :
  dkeys (dset k v d) = if dmem k d then dkeys d else dkeys d ++ [k].
Proof.
  unfold dmem. induction d as [|[k' v'] d IH]; cbn; [reflexivity|].
  destruct (String.eqb k k') eqn:E; cbn; [reflexivity|].
  unfold dkeys in *. rewrite IH. now destruct (dget k d).
Qed.

Lemma NoDup_dset {V} k (v : V) d : NoDup (dkeys d) -> NoDup (dkeys (dset k v d)).
Proof.
  intros H. rewrite dkeys_dset. unfold dmem. destruct (dget k d) eqn:E; auto.
  apply dget_None in E.
  clear v. induction (dkeys d) as [|x xs IH]; cbn; [constructor; auto; constructor|].
  inversion H as [|? ? Hni Hnd]; subst. constructor.
  - rewrite in_app_iff; cbn. intros [?|[?|[]]]; [auto|subst; cbn in E; auto].
  - apply IH; auto. cbn in E. tauto.
Qed.

Lemma dkeys_ddel {V} k (d : dict V) : NoDup (dkeys d) ->
  forall x, In x (dkeys (ddel k d)) <-> In x (dkeys d) /\ x <> k.
Proof.
  intros Hnd x. induction d as [|[k' v'] d IH]; cbn; [tauto|].
  inversion Hnd as [|? ? Hni Hnd' E]; subst.
  destruct (String.eqb_spec k k') as [->|Hne]; cbn.
  - split.
    + intros H; split; auto. intros ->; auto.
    + intros [[->|H] Hx]; auto. now contradiction Hx.
  - rewrite IH by auto. split.
    + intros [->|[H1 H2]]; auto.
    + intros [[->|H1] H2]; auto.
Qed.

Lemma dget_ddel_same {V} k (d : dict V) : NoDup (dkeys d) -> dget k (ddel k d) = None.
Proof.
  intros Hnd. apply dget_None. rewrite dkeys_ddel by auto. tauto.
Qed.

Lemma dget_ddel_other {V} k k2 (d : dict V) : k <> k2 -> dget k (ddel k2 d) = dget k d.
Proof.
  intros Hne; induction d as [|[k' v'] d IH]; cbn; [reflexivity|].
  destruct (String.eqb_spec k2 k') as [->|Hne2]; cbn.
  - now rewrite (proj2 (String.eqb_neq _ _) Hne).
  - now rewrite IH.
Qed.

Lemma NoDup_ddel {V} k (d : dict V) : NoDup (dkeys d) -> NoDup (dkeys (ddel k d)).
Proof.
  induction d as [|[k' v'] d IH]; cbn; intros H; [constructor|].
  inversion H as [|? ? Hni Hnd]; subst. destruct (String.eqb k k'); auto.
  cbn. constructor; auto. intros Hin.
  destruct (String.eqb_spec k k') as [->|Hne].
  - apply dkeys_ddel in Hin; tauto.
  - apply dkeys_ddel in Hin; tauto.
Qed.

Lemma ddel_notin {V} k (d : dict V) : ~ In k (dkeys d) -> ddel k d = d.
Proof.
  induction d as [|[k' v'] d IH]; cbn; intros H; [reflexivity|].
  destruct (String.eqb_spec k k') as [->|Hne]; [tauto|]. now rewrite IH by tauto.
Qed.

Lemma ddel_app_last {V} k (v : V) (d : dict V) : ~ In k (dkeys d) -> ddel k (d ++ [(k, v)]) = d.
Proof.
  induction d as [|[k' v'] d IH]; cbn; intros H; [now rewrite String.eqb_refl|].
  destruct (String.eqb_spec k k') as [->|Hne]; [tauto|]. now rewrite IH by tauto.
Qed.

Lemma dset_notin {V} k (v : V) (d : dict V) : ~ In k (dkeys d) -> dset k v d = d ++ [(k, v)].
Proof.
  induction d as [|[k' v'] d IH]; cbn; intros H; [reflexivity|].
  destruct (String.eqb_spec k k') as [->|Hne]; [tauto|]. now rewrite IH by tauto.
Qed.

Lemma smem_In k l : smem k l = true <-> In k l.
Proof.
  unfold smem. rewrite existsb_exists. split.
  - intros [x [Hin Heq]]. apply String.eqb_eq in Heq. now subst.
  - intros H. exists k. split; auto. apply String.eqb_refl.
Qed.

Lemma smem_false k l : smem k l = false <-> ~ In k l.
Proof. rewrite <- smem_In. destruct (smem k l); split; congruence. Qed.

(** ** upd and scatter *)
Lemma upd_length {A} n (v : A) l : length (upd n v l) = length l.
Proof. revert n; induction l as [|x xs IH]; intros [|n]; cbn; auto. Qed.

Lemma nth_error_upd {A} n m (v : A) l :
  nth_error (upd n v l) m =
  if Nat.eqb n m then (if Nat.ltb n (length l) then Some v else None) else nth_error l m.
Proof.
  revert n m; induction l as [|x xs IH]; intros n m.
  - cbn. destruct n; destruct (Nat.eqb _ m); now destruct m.
  - destruct n as [|n], m as [|m]; cbn; auto. rewrite IH.
    destruct (Nat.eqb n m); auto.
Qed.

Lemma scatter_length {A} idx (v : A) l : length (scatter idx v l) = length l.
Proof.
  unfold scatter. revert l; induction idx as [|i is IH]; intros l; cbn; auto.
  now rewrite IH, upd_length.
Qed.

Lemma nth_error_scatter {A} idx (v : A) l m :
  m < length l ->
  nth_error (scatter idx v l) m = if existsb (Nat.eqb m) idx then Some v else nth_error l m.
Proof.
  unfold scatter. revert l; induction idx as [|i is IH]; intros l Hm; cbn; auto.
  rewrite IH by (now rewrite upd_length).
  rewrite nth_error_upd. destruct (existsb (Nat.eqb m) is) eqn:E; [now rewrite orb_true_r|].
  rewrite orb_false_r, Nat.eqb_sym. destruct (Nat.eqb_spec m i) as [->|Hne]; auto.
  now rewrite (proj2 (Nat.ltb_lt _ _) Hm).
Qed.

(** ** lists *)
Lemma nth_error_ext {A} (l1 l2 : list A) :
  (forall i, nth_error l1 i = nth_error l2 i) -> l1 = l2.
Proof.
  revert l2; induction l1 as [|x xs IH]; intros [|y ys] H; auto.
  - specialize (H 0); discriminate.
  - specialize (H 0); discriminate.
  - f_equal.
    + specialize (H 0). now injection H.
    + apply IH. intros i. exact (H (S i)).
Qed.

Lemma split_lens_length {A} lens (l : list A) : length (split_lens lens l) = length lens.
Proof. revert l; induction lens as [|n ns IH]; intros l; cbn; auto. Qed.

Lemma split_lens_concat {A} (ls : list (list A)) :
  split_lens (map (@length A) ls) (concat ls) = ls.
Proof.
  induction ls as [|x xs IH]; cbn; auto.
  rewrite firstn_app, firstn_all, Nat.sub_diag, skipn_app, skipn_all, Nat.sub_diag. cbn.
  now rewrite app_nil_r, IH.
Qed.

Lemma concat_split_lens {A} lens (l : list A) :
  sum_nat lens = length l -> concat (split_lens lens l) = l.
Proof.
  revert l; induction lens as [|n ns IH]; intros l; cbn.
  - destruct l; cbn; auto. discriminate.
  - intros H. rewrite IH.
    + apply firstn_skipn.
    + rewrite skipn_length. lia.
Qed.

Lemma concat_length_sum {A} (ls : list (list A)) :
  length (concat ls) = sum_nat (map (@length A) ls).
Proof. induction ls as [|x xs IH]; cbn; auto. now rewrite app_length, IH. Qed.

Lemma mapO_nth {A B} (f : A -> option B) l l' :
  mapO f l = Some l' -> length l' = length l /\
  forall i x, nth_error l i = Some x -> exists y, nth_error l' i = Some y /\ f x = Some y.
Proof.
  revert l'; induction l as [|x xs IH]; intros l'; cbn.
  - intros H; injection H as <-. split; auto. intros [|i] y; discriminate.
  - destruct (f x) eqn:Ef; [|discriminate]. destruct (mapO f xs) eqn:Em; [|discriminate].
    intros H; injection H as <-. destruct (IH _ eq_refl) as [Hl Hn]. split; [cbn; auto|].
    intros [|i] y Hy; cbn in Hy.
    + injection Hy as <-. cbn; eauto.
    + cbn. eauto.
Qed.

Lemma mapO_map_Some {A B} (f : A -> option B) (g : A -> B) l :
  (forall x, In x l -> f x = Some (g x)) -> mapO f l = Some (map g l).
Proof.
  induction l as [|x xs IH]; cbn; intros H; auto.
  rewrite H by auto. rewrite IH; auto.
Qed.

Lemma mapO_length {A B} (f : A -> option B) l l' : mapO f l = Some l' -> length l' = length l.
Proof. intros H; now apply mapO_nth in H. Qed.

Lemma mapM_map {A B} (f : A -> result B) (g : A -> B) l :
  (forall x, In x l -> f x = Ok (g x)) -> mapM f l = Ok (map g l).
Proof.
  induction l as [|x xs IH]; cbn; intros H; auto.
  rewrite H by auto. cbn. rewrite IH; auto.
Qed.

Lemma mapM_length {A B} (f : A -> result B) l l' : mapM f l = Ok l' -> length l' = length l.
Proof.
  revert l'; induction l as [|x xs IH]; cbn; intros l'.
  - intros H; now injection H as <-.
  - destruct (f x) as [y|e]; cbn; [|discriminate].
    destruct (mapM f xs) as [ys|e]; cbn; [|discriminate].
    intros H; injection H as <-. cbn. now rewrite (IH ys eq_refl).
Qed.

Lemma sum_nat_app a b : sum_nat (a ++ b) = sum_nat a + sum_nat b.
Proof. induction a as [|x xs IH]; cbn; auto. rewrite IH. lia. Qed.

(** ** where_ *)
Lemma where_from_spec {A} (f : A -> bool) l i k :
  In k (where_from f i l) <-> i <= k /\ exists x, nth_error l (k - i) = Some x /\ f x = true.
Proof.
  revert i; induction l as [|x xs IH]; intros i; cbn.
  - split; [tauto|]. intros [_ [x [H _]]]. destruct (k - i); discriminate.
  - assert (Hrec : In k (where_from f (S i) xs) <->
                   S i <= k /\ exists y, nth_error xs (k - S i) = Some y /\ f y = true)
      by apply IH.
    destruct (f x) eqn:Ef; cbn; rewrite ?Hrec; split.
    + intros [<-|[H1 [y [H2 H3]]]].
      * split; auto. exists x. now rewrite Nat.sub_diag.
      * split; [lia|]. exists y. replace (k - i) with (S (k - S i)) by lia. auto.
    + intros [H1 [y [H2 H3]]]. destruct (Nat.eq_dec i k) as [->|Hne]; auto. right.
      split; [lia|]. exists y. replace (k - i) with (S (k - S i)) in H2 by lia. auto.
    + intros [H1 [y [H2 H3]]].
      split; [lia|]. exists y. replace (k - i) with (S (k - S i)) by lia. auto.
    + intros [H1 [y [H2 H3]]]. destruct (Nat.eq_dec i k) as [->|Hne].
      * rewrite Nat.sub_diag in H2; cbn in H2. congruence.
      * split; [lia|]. exists y. replace (k - i) with (S (k - S i)) in H2 by lia. auto.
Qed.

Lemma where_spec {A} (f : A -> bool) l k :
  In k (where_ f l) <-> exists x, nth_error l k = Some x /\ f x = true.
Proof.
  unfold where_. rewrite where_from_spec, Nat.sub_0_r. split; [tauto|]. split; [lia|auto].
Qed.

From Coq Require Import Sorted.
Lemma where_from_sorted {A} (f : A -> bool) l i :
  StronglySorted lt (where_from f i l).
Proof.
  revert i; induction l as [|x xs IH]; intros i; cbn; [constructor|].
  destruct (f x); auto. constructor; auto.
  apply Forall_forall. intros k Hk. apply where_from_spec in Hk. lia.
Qed.
Lemma where_sorted {A} (f : A -> bool) l : StronglySorted lt (where_ f l).
Proof. apply where_from_sorted. Qed.

Lemma StronglySorted_lt_ext (l1 l2 : list nat) :
  StronglySorted lt l1 -> StronglySorted lt l2 -> (forall x, In x l1 <-> In x l2) -> l1 = l2.
Proof.
  revert l2; induction l1 as [|x xs IH]; intros [|y ys] H1 H2 H; auto.
  - exfalso. apply (proj2 (H y)). now left.
  - exfalso. apply (proj1 (H x)). now left.
  - inversion H1 as [|? ? S1 F1]; inversion H2 as [|? ? S2 F2]; subst.
    rewrite Forall_forall in F1, F2.
    assert (x = y) as ->.
    { destruct (proj1 (H x) (or_introl eq_refl)) as [->|Hx]; auto.
      destruct (proj2 (H y) (or_introl eq_refl)) as [->|Hy]; auto.
      apply F2 in Hx. apply F1 in Hy. lia. }
    f_equal. apply IH; auto. intros z. split; intros Hz.
    + destruct (proj1 (H z) (or_intror Hz)) as [->|]; auto. apply F1 in Hz. lia.
    + destruct (proj2 (H z) (or_intror Hz)) as [->|]; auto. apply F2 in Hz. lia.
Qed.

(** ** zunique *)
Lemma zinsert_In x y l : In y (zinsert x l) <-> y = x \/ In y l.
Proof.
  induction l as [|z zs IH]; cbn; [intuition|].
  destruct (Z.ltb_spec x z); cbn; [intuition|].
  destruct (Z.eqb_spec x z) as [->|Hne]; cbn; [intuition|]. rewrite IH. intuition.
Qed.

Lemma zunique_In y l : In y (zunique l) <-> In y l.
Proof.
  induction l as [|x xs IH]; cbn; [tauto|]. rewrite zinsert_In, IH. intuition.
Qed.

Lemma zinsert_sorted x l : StronglySorted Z.lt l -> StronglySorted Z.lt (zinsert x l).
Proof.
  induction l as [|z zs IH]; cbn; intros H; [repeat constructor|].
  inversion H as [|? ? Hs Hf]; subst. rewrite Forall_forall in Hf.
  destruct (Z.ltb_spec x z).
  - constructor; auto. apply Forall_forall. intros w [->|Hw]; auto. apply Hf in Hw. lia.
  - destruct (Z.eqb_spec x z) as [->|Hne]; auto.
    constructor; auto. apply Forall_forall. intros w Hw. apply zinsert_In in Hw.
    destruct Hw as [->|Hw]; [lia|auto].
Qed.

Lemma zunique_sorted l : StronglySorted Z.lt (zunique l).
Proof. induction l as [|x xs IH]; cbn; [constructor|]. now apply zinsert_sorted. Qed.

Lemma StronglySorted_Zlt_ext (l1 l2 : list Z) :
  StronglySorted Z.lt l1 -> StronglySorted Z.lt l2 -> (forall x, In x l1 <-> In x l2) -> l1 = l2.
Proof.
  revert l2; induction l1 as [|x xs IH]; intros [|y ys] H1 H2 H; auto.
  - exfalso. apply (proj2 (H y)). now left.
  - exfalso. apply (proj1 (H x)). now left.
  - inversion H1 as [|? ? S1 F1]; inversion H2 as [|? ? S2 F2]; subst.
    rewrite Forall_forall in F1, F2.
    assert (x = y) as ->.
    { destruct (proj1 (H x) (or_introl eq_refl)) as [->|Hx]; auto.
      destruct (proj2 (H y) (or_introl eq_refl)) as [->|Hy]; auto.
      apply F2 in Hx. apply F1 in Hy. lia. }
    f_equal. apply IH; auto. intros z. split; intros Hz.
    + destruct (proj1 (H z) (or_intror Hz)) as [->|]; auto. apply F1 in Hz. lia.
    + destruct (proj2 (H z) (or_intror Hz)) as [->|]; auto. apply F2 in Hz. lia.
Qed.

Lemma StronglySorted_Zlt_NoDup l : StronglySorted Z.lt l -> NoDup l.
Proof.
  induction 1 as [|x xs Hs IH Hf]; constructor; auto.
  rewrite Forall_forall in Hf. intros Hin. apply Hf in Hin. lia.
Qed.

Lemma zunique_NoDup l : NoDup (zunique l).
Proof. apply StronglySorted_Zlt_NoDup, zunique_sorted. Qed.

(** ** combine and nth_error *)
Lemma nth_error_combine {A B} (l1 : list A) (l2 : list B) i x y :
  nth_error (combine l1 l2) i = Some (x, y) <->
  nth_error l1 i = Some x /\ nth_error l2 i = Some y.
Proof.
  revert l2 i; induction l1 as [|a l1 IH]; intros [|b l2] [|i]; cbn;
    try (split; [intros; discriminate | intros [? ?]; discriminate]).
  - split; [intros H; now injection H as -> -> | intros [H1 H2]; congruence].
  - apply IH.
Qed.

Lemma map_fst_combine {A B} (l1 : list A) (l2 : list B) :
  length l1 = length l2 -> map fst (combine l1 l2) = l1.
Proof. revert l2; induction l1; intros [|b l2]; cbn; auto; intros; try discriminate. f_equal; auto. Qed.
Lemma map_snd_combine {A B} (l1 : list A) (l2 : list B) :
  length l1 = length l2 -> map snd (combine l1 l2) = l2.
Proof. revert l2; induction l1; intros [|b l2]; cbn; auto; intros; try discriminate. f_equal; auto. Qed.

Lemma nth_error_enumerate {A} (l : list A) i p :
  nth_error (enumerate l) i = Some p <-> exists x, nth_error l i = Some x /\ p = (i, x).
Proof.
  unfold enumerate. destruct p as [j x]. rewrite nth_error_combine. split.
  - intros [H1 H2]. exists x. split; auto.
    assert (i < length l) by (apply nth_error_Some; congruence).
    rewrite nth_error_nth' with (d := 0) in H1 by (now rewrite seq_length).
    rewrite seq_nth in H1 by auto. cbn in H1. congruence.
  - intros [y [H1 H2]]. injection H2 as -> ->. split; auto.
    assert (i < length l) by (apply nth_error_Some; congruence).
    rewrite nth_error_nth' with (d := 0) by (now rewrite seq_length).
    now rewrite seq_nth.
Qed.

Lemma Forall2_length {A B} (R : A -> B -> Prop) l1 l2 : Forall2 R l1 l2 -> length l1 = length l2.
Proof. induction 1; cbn; auto. Qed.

Lemma Forall2_nth_error {A B} (R : A -> B -> Prop) l1 l2 :
  length l1 = length l2 ->
  (forall i a b, nth_error l1 i = Some a -> nth_error l2 i = Some b -> R a b) ->
  Forall2 R l1 l2.
Proof.
  revert l2; induction l1 as [|a l1 IH]; intros [|b l2]; cbn; intros Hl H; try discriminate;
    constructor.
  - apply (H 0); auto.
  - apply IH; [lia|]. intros i. apply (H (S i)).
Qed.

Lemma Forall2_nth_error_l {A B} (R : A -> B -> Prop) l1 l2 :
  Forall2 R l1 l2 -> forall i a, nth_error l1 i = Some a ->
  exists b, nth_error l2 i = Some b /\ R a b.
Proof.
  induction 1 as [|a b l1 l2 Hab H IH]; intros [|i] x; cbn; try discriminate.
  - intros E; injection E as <-. eauto.
  - apply IH.
Qed.

Lemma Forall2_nth_error_r {A B} (R : A -> B -> Prop) l1 l2 :
  Forall2 R l1 l2 -> forall i b, nth_error l2 i = Some b ->
  exists a, nth_error l1 i = Some a /\ R a b.
Proof.
  induction 1 as [|a b l1 l2 Hab H IH]; intros [|i] x; cbn; try discriminate.
  - intros E; injection E as <-. eauto.
  - apply IH.
Qed.
