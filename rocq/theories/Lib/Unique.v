(** Stable sorting, [np.argsort] and [np.unique(..., axis=0)] for rows compared by an
    abstract order. *)
From Verif.Lib Require Import Base Facts Facts2.
From Coq Require Import Sorting.Sorted Sorting.Permutation.

Section Sort.
Context {A : Type} (le : A -> A -> bool).
(** Stable insertion sort (numpy's mergesort is stable). *)
Fixpoint insert (x : A) (l : list A) : list A :=
  match l with
  | [] => [x]
  | y :: ys => if le x y then x :: y :: ys else y :: insert x ys
  end.
Definition isort (l : list A) : list A := fold_right insert [] l.
End Sort.

(** [np.argsort(l, kind="mergesort")] *)
Definition argsort {A} (le : A -> A -> bool) (l : list A) : list nat :=
  map fst (isort (fun a b => le (snd a) (snd b)) (enumerate l)).

(** [l[idx]] *)
Definition take {A} (l : list A) (idx : list nat) : list A :=
  flat_map (fun i => match nth_error l i with Some x => [x] | None => [] end) idx.

(** [l[mask]] *)
Definition select {A} (mask : list bool) (l : list A) : list A :=
  map snd (filter fst (combine mask l)).

Section Unique.
Context {P : Type} (le : P -> P -> bool).
Definition eqv (a b : P) : bool := le a b && le b a.

(** numpy/lib/arraysetops.py [_unique1d]: mask of the first element of every run *)
Fixpoint differs (prev : P) (l : list P) : list bool :=
  match l with
  | [] => []
  | b :: l' => negb (eqv prev b) :: differs b l'
  end.
Definition run_mask (aux : list P) : list bool :=
  match aux with [] => [] | a :: l => true :: differs a l end.

Definition b2n (b : bool) : nat := if b then 1 else 0.
(** [_, idx, inv = np.unique(pts, axis=0, return_index=True, return_inverse=True)] *)
Definition unique_index (pts : list P) : list nat :=
  let perm := argsort le pts in select (run_mask (take pts perm)) perm.
Definition unique_inverse (pts : list P) : list nat :=
  let perm := argsort le pts in
  let imask := map pred (cumsum (map b2n (run_mask (take pts perm)))) in
  fold_left (fun acc pi => upd (fst pi) (snd pi) acc) (combine perm imask) (repeat 0 (length pts)).
End Unique.

(** ** Facts *)
Section SortFacts.
Context {A : Type} (le : A -> A -> bool).
Lemma insert_perm x l : Permutation (insert le x l) (x :: l).
Proof.
  induction l as [|y l IH]; cbn; [reflexivity|]. destruct (le x y); [reflexivity|].
  rewrite IH. apply perm_swap.
Qed.
Lemma isort_perm l : Permutation (isort le l) l.
Proof. induction l as [|x l IH]; cbn; [reflexivity|]. rewrite insert_perm. now constructor. Qed.
End SortFacts.

Lemma Forall_perm {A} (P : A -> Prop) l l' : Permutation l l' -> Forall P l -> Forall P l'.
Proof.
  intros H. rewrite !Forall_forall. intros F x Hx. apply F. eapply Permutation_in; [symmetry|]; eassumption.
Qed.

Section StableFacts.
Context {P : Type} (le : P -> P -> bool).
Hypothesis total : forall a b, le a b = true \/ le b a = true.
Hypothesis trans : forall a b c, le a b = true -> le b c = true -> le a c = true.
Let lep (a b : nat * P) := le (snd a) (snd b).
(** Sorted by value, and by position among equal values. *)
Let before (a b : nat * P) : Prop := le (snd a) (snd b) = true /\ (le (snd b) (snd a) = true -> fst a < fst b).

Lemma before_trans a b c : before a b -> before b c -> before a c.
Proof.
  unfold before. intros [H1 H2] [H3 H4]. split; [eauto|]. intros H.
  assert (le (snd c) (snd b) = true) by eauto. assert (le (snd b) (snd a) = true) by eauto.
  specialize (H2 H5). specialize (H4 H0). lia.
Qed.

Lemma insert_stable x l : Forall (fun y => fst x < fst y) l -> StronglySorted before l ->
  StronglySorted before (insert lep x l).
Proof.
  induction l as [|y l IH]; intros Hx Hs; cbn [insert]; [repeat constructor|].
  inversion Hx as [|? ? Hxy Hx']; subst. inversion Hs as [|? ? Hs' Hy]; subst.
  unfold lep at 1. destruct (le (snd x) (snd y)) eqn:E.
  - constructor; [auto|]. constructor.
    + split; auto.
    + rewrite Forall_forall in *. intros z Hz. assert (before y z) by auto. eapply before_trans; [|eassumption]. split; auto.
  - constructor; [auto|]. apply (Forall_perm _ (x :: l)); [symmetry; apply insert_perm|].
    constructor; [|auto]. split; [destruct (total (snd x) (snd y)); congruence|congruence].
Qed.

Lemma isort_stable (l : list (nat * P)) : StronglySorted (fun a b => fst a < fst b) l ->
  StronglySorted before (isort lep l).
Proof.
  induction 1 as [|x l H IH Hx]; cbn; [constructor|]. apply insert_stable; [|exact IH].
  apply (Forall_perm _ l); [symmetry; apply isort_perm|exact Hx].
Qed.

Lemma enumerate_sorted_from (l : list P) k :
  StronglySorted (fun a b : nat * P => fst a < fst b) (combine (seq k (length l)) l).
Proof.
  revert k; induction l as [|x l IH]; intros k; cbn; constructor; [apply IH|].
  rewrite Forall_forall. intros [i y] Hi. apply in_combine_l in Hi. apply in_seq in Hi. cbn. lia.
Qed.

Definition sorted_pairs (pts : list P) : list (nat * P) := isort lep (enumerate pts).
Lemma sorted_pairs_sorted pts : StronglySorted before (sorted_pairs pts).
Proof. apply isort_stable. apply enumerate_sorted_from. Qed.
Lemma sorted_pairs_In pts i p : In (i, p) (sorted_pairs pts) <-> nth_error pts i = Some p.
Proof.
  unfold sorted_pairs. split.
  - intros H. eapply Permutation_in in H; [|apply isort_perm]. apply In_nth_error in H. destruct H as [j H].
    apply nth_error_enumerate in H. destruct H as (x & H1 & H2). injection H2 as -> ->. exact H1.
  - intros H. eapply Permutation_in; [symmetry; apply isort_perm|]. apply nth_error_In with (n := i).
    apply nth_error_enumerate. eauto.
Qed.
Lemma argsort_eq pts : argsort le pts = map fst (sorted_pairs pts).
Proof. reflexivity. Qed.
Lemma argsort_perm pts : Permutation (argsort le pts) (seq 0 (length pts)).
Proof.
  rewrite argsort_eq. unfold sorted_pairs. rewrite isort_perm. unfold enumerate.
  rewrite map_fst_combine; [reflexivity|]. rewrite seq_length. lia.
Qed.
Lemma take_argsort pts : take pts (argsort le pts) = map snd (sorted_pairs pts).
Proof.
  rewrite argsort_eq. assert (H : forall i p, In (i, p) (sorted_pairs pts) -> nth_error pts i = Some p) by
    (intros; now apply sorted_pairs_In).
  induction (sorted_pairs pts) as [|[i p] l IH]; [reflexivity|]. cbn. rewrite (H i p) by now left.
  cbn. f_equal. apply IH. intros. apply H. now right.
Qed.

(** Runs of a sorted list: [h] heads the run that is open. *)
Lemma eqv_refl a : eqv le a a = true.
Proof. unfold eqv. destruct (total a a) as [H|H]; now rewrite H. Qed.
Lemma eqv_sym a b : eqv le a b = eqv le b a.
Proof. unfold eqv. apply andb_comm. Qed.
Lemma eqv_trans a b c : eqv le a b = true -> eqv le b c = true -> eqv le a c = true.
Proof. unfold eqv. rewrite !andb_true_iff. intros [] []. split; eauto. Qed.

Definition rel_before := before.

Lemma runs_of_sorted (l : list (nat * P)) : forall h prev,
  eqv le (snd h) (snd prev) = true -> fst h <= fst prev -> StronglySorted before (prev :: l) ->
  let mask := differs le (snd prev) (map snd l) in
  (* every entry belongs to the run with its number, headed by the first position *)
  (forall c j x, nth_error l j = Some x -> exists r y,
     nth_error (cumsum_from c (map b2n mask)) j = Some (c + r) /\
     nth_error (h :: select mask l) r = Some y /\ eqv le (snd y) (snd x) = true /\ fst y <= fst x) /\
  (* heads are strictly increasing *)
  (Forall (fun y => le (snd y) (snd h) = false) (select mask l)) /\
  StronglySorted (fun a b => le (snd b) (snd a) = false) (select mask l).
Proof.
  induction l as [|b l IH]; intros h prev He Hi Hs; cbn [map differs].
  - cbn. split; [|split; constructor]. intros c j x Hj. destruct j; discriminate.
  - inversion Hs as [|? ? Hs' Hp]; subst. inversion Hp as [|? ? Hpb Hp']; subst.
    destruct Hpb as [Hle Hlt].
    destruct (eqv le (snd prev) (snd b)) eqn:E.
    + assert (E' := E). unfold eqv in E'. apply andb_true_iff in E'. destruct E' as [E1 E2]. specialize (Hlt E2).
      destruct (IH h b) as (I1 & I2 & I3); [eapply eqv_trans; eauto|lia|auto|].
      cbn [negb]. unfold select in *. cbn [combine filter fst]. split; [|split; auto].
      intros c j x Hj. destruct j as [|j].
      * injection Hj as <-. exists 0, h. cbn. rewrite Nat.add_0_r. repeat split; auto; [eapply eqv_trans; eauto|lia].
      * cbn in Hj. destruct (I1 c j x Hj) as (r & y & Y). exists r, y. cbn [map b2n cumsum_from nth_error].
        rewrite Nat.add_0_r. exact Y.
    + destruct (IH b b) as (I1 & I2 & I3); [apply eqv_refl|lia|auto|].
      cbn [negb]. unfold select in *. cbn [combine filter fst map snd].
      assert (Hb : le (snd b) (snd h) = false).
      { destruct (le (snd b) (snd h)) eqn:F; [|reflexivity]. unfold eqv in E, He. rewrite Hle in E.
        apply andb_true_iff in He. destruct He as [He1 He2].
        rewrite (trans _ _ _ F He1) in E. discriminate. }
      split; [|split].
      * intros c j x Hj. destruct j as [|j].
        -- injection Hj as <-. exists 1, b. cbn. repeat split; auto. apply eqv_refl.
        -- cbn in Hj. destruct (I1 (c + 1) j x Hj) as (r & y & Y1 & Y2). exists (S r), y.
           cbn [map b2n cumsum_from nth_error]. split; [rewrite Y1; f_equal; lia|exact Y2].
      * constructor; [exact Hb|]. rewrite Forall_forall in *. intros y Hy. specialize (I2 y Hy).
        destruct (le (snd y) (snd h)) eqn:F; [|reflexivity]. assert (le (snd y) (snd b) = true); [|congruence].
        unfold eqv in He. apply andb_true_iff in He. destruct He as [He1 He2]. eauto.
      * constructor; auto.
Qed.

Lemma combine_map_r {A B C} (f : B -> C) (l1 : list A) (l2 : list B) :
  combine l1 (map f l2) = map (fun ab => (fst ab, f (snd ab))) (combine l1 l2).
Proof. revert l2; induction l1 as [|a l1 IH]; intros [|b l2]; cbn; auto. now f_equal. Qed.
Lemma select_map {A B} (f : A -> B) mask (l : list A) : select mask (map f l) = map f (select mask l).
Proof.
  unfold select. revert l; induction mask as [|m mask IH]; intros [|x l]; cbn; auto.
  destruct m; cbn; now rewrite IH.
Qed.

(** The whole sorted list. *)
Lemma runs_sorted_pairs pts : let mask := run_mask le (map snd (sorted_pairs pts)) in
  let heads := select mask (sorted_pairs pts) in
  (forall j x, nth_error (sorted_pairs pts) j = Some x -> exists r y,
     nth_error (map pred (cumsum (map b2n mask))) j = Some r /\ nth_error heads r = Some y /\
     eqv le (snd y) (snd x) = true /\ fst y <= fst x) /\
  StronglySorted (fun a b => le (snd b) (snd a) = false) heads /\ incl heads (sorted_pairs pts).
Proof.
  pose proof (sorted_pairs_sorted pts) as Hs. set (l := sorted_pairs pts) in *. clearbody l.
  cbv zeta. split; [|split].
  - destruct l as [|h l]; [intros [|]; discriminate|]. cbn [map run_mask].
    destruct (runs_of_sorted l h h (eqv_refl _) (le_n _) Hs) as (H1 & H2 & H3).
    intros j x Hj. destruct j as [|j].
    + injection Hj as <-. exists 0, h. unfold cumsum. cbn. repeat split; auto. apply eqv_refl.
    + cbn in Hj. destruct (H1 1 j x Hj) as (r & y & Y1 & Y2). exists r, y. unfold cumsum.
      cbn [map b2n cumsum_from nth_error]. change (0 + 1) with 1. rewrite nth_error_map, Y1. cbn [option_map]. split; [reflexivity|].
      unfold select in *. cbn [combine filter fst map snd]. exact Y2.
  - destruct l as [|h l]; [constructor|]. cbn [map run_mask].
    destruct (runs_of_sorted l h h (eqv_refl _) (le_n _) Hs) as (H1 & H2 & H3).
    unfold select in *. cbn [combine filter fst map snd]. constructor; auto.
  - unfold select. intros x Hx. apply in_map_iff in Hx. destruct Hx as ([m y] & <- & Hy).
    apply filter_In in Hy. destruct Hy as [Hy _]. eapply in_combine_r; eauto.
Qed.

Definition heads (pts : list P) : list (nat * P) :=
  select (run_mask le (map snd (sorted_pairs pts))) (sorted_pairs pts).
Lemma unique_index_eq pts : unique_index le pts = map fst (heads pts).
Proof. unfold unique_index. rewrite take_argsort, argsort_eq. apply select_map. Qed.

(** The entries picked are exactly the first occurrences. *)
Definition is_first (pts : list P) (i : nat) : Prop :=
  exists p, nth_error pts i = Some p /\
  forall j q, j < i -> nth_error pts j = Some q -> eqv le p q = false.

Lemma strongly_sorted_nth {A} (R : A -> A -> Prop) l : StronglySorted R l ->
  forall i j x y, i < j -> nth_error l i = Some x -> nth_error l j = Some y -> R x y.
Proof.
  induction 1 as [|a l H IH Ha]; intros i j x y Hij Hi Hj; [destruct i; discriminate|].
  destruct j as [|j]; [lia|]. destruct i as [|i]; cbn in *.
  - injection Hi as <-. rewrite Forall_forall in Ha. apply Ha. eapply nth_error_In; eauto.
  - eapply IH; [|eassumption..]. lia.
Qed.

Lemma heads_first pts i p : In (i, p) (heads pts) <-> nth_error pts i = Some p /\ is_first pts i.
Proof.
  destruct (runs_sorted_pairs pts) as (H1 & H2 & H3). fold (heads pts) in *. split.
  - intros H. assert (Hp : nth_error pts i = Some p) by (apply sorted_pairs_In; now apply H3).
    split; [auto|]. exists p. split; [auto|]. intros j q Hj Hq. destruct (eqv le p q) eqn:E; [|reflexivity]. exfalso.
    apply sorted_pairs_In in Hq. apply In_nth_error in Hq. destruct Hq as [n Hn].
    destruct (H1 n _ Hn) as (r & y & _ & Hy & He & Hle). cbn in He, Hle.
    apply In_nth_error in H. destruct H as [n' Hn'].
    assert (Eq : eqv le (snd y) p = true) by (eapply eqv_trans; [exact He|]; now rewrite eqv_sym).
    destruct (Nat.lt_trichotomy r n') as [L|[L|L]].
    + pose proof (strongly_sorted_nth _ _ H2 _ _ _ _ L Hy Hn') as C. cbn in C. unfold eqv in Eq.
      apply andb_true_iff in Eq. destruct Eq. congruence.
    + subst. rewrite Hn' in Hy. injection Hy as <-. cbn in Hle. lia.
    + pose proof (strongly_sorted_nth _ _ H2 _ _ _ _ L Hn' Hy) as C. cbn in C. unfold eqv in Eq.
      apply andb_true_iff in Eq. destruct Eq. congruence.
  - intros [Hp (p' & Hp' & Hf)]. rewrite Hp in Hp'. injection Hp' as <-.
    assert (Hq := Hp). apply sorted_pairs_In in Hq. apply In_nth_error in Hq. destruct Hq as [n Hn].
    destruct (H1 n _ Hn) as (r & [k y] & _ & Hy & He & Hle). cbn in He, Hle.
    assert (Hin : In (k, y) (heads pts)) by (eapply nth_error_In; eauto).
    assert (Hk : nth_error pts k = Some y) by (apply sorted_pairs_In; now apply H3).
    destruct (Nat.eq_dec k i) as [->|Hne].
    + rewrite Hk in Hp. injection Hp as ->. exact Hin.
    + specialize (Hf k y ltac:(lia) Hk). rewrite eqv_sym in Hf. congruence.
Qed.
End StableFacts.

(** [argsort] of a list of positions *)
Lemma nat_leb_total a b : Nat.leb a b = true \/ Nat.leb b a = true.
Proof. rewrite !Nat.leb_le. lia. Qed.
Lemma nat_leb_trans a b c : Nat.leb a b = true -> Nat.leb b c = true -> Nat.leb a c = true.
Proof. rewrite !Nat.leb_le. lia. Qed.

Lemma take_map_fst {A B} (f : A -> B) l idx : take (map f l) idx = map f (take l idx).
Proof.
  unfold take. induction idx as [|i idx IH]; cbn; auto. rewrite map_app, <- IH, nth_error_map.
  destruct (nth_error l i); reflexivity.
Qed.
Lemma take_length {A} (l : list A) idx : Forall (fun i => i < length l) idx -> length (take l idx) = length idx.
Proof.
  induction 1 as [|i idx Hi H IH]; cbn; auto. apply nth_error_Some in Hi. destruct (nth_error l i); [|congruence].
  cbn. now f_equal.
Qed.
Lemma take_nth {A} (l : list A) idx : Forall (fun i => i < length l) idx ->
  forall j, nth_error (take l idx) j = match nth_error idx j with Some i => nth_error l i | None => None end.
Proof.
  induction 1 as [|i idx Hi H IH]; intros j; [now destruct j|]. cbn.
  apply nth_error_Some in Hi. destruct (nth_error l i) eqn:E; [|congruence]. cbn.
  destruct j; cbn; auto.
Qed.

Lemma strongly_sorted_impl {A} (R S : A -> A -> Prop) l : (forall a b, R a b -> S a b) ->
  StronglySorted R l -> StronglySorted S l.
Proof.
  intros I. induction 1 as [|a l H IH Ha]; constructor; auto. eapply Forall_impl; [|exact Ha]. auto.
Qed.
Lemma strongly_sorted_map {A B} (f : A -> B) (R : B -> B -> Prop) l :
  StronglySorted R (map f l) <-> StronglySorted (fun a b => R (f a) (f b)) l.
Proof.
  induction l as [|a l IH]; cbn; [split; constructor|]. split; intros H; inversion H; subst; constructor; try tauto.
  - rewrite Forall_forall in *. intros x Hx. match goal with F : forall _, _ |- _ => apply F end. now apply in_map.
  - rewrite Forall_forall in *. intros x Hx. apply in_map_iff in Hx. destruct Hx as (y & <- & Hy). auto.
Qed.

(** [idx[argsort(idx)]] is [idx] in ascending order. *)
Lemma take_argsort_sorted idx : NoDup idx -> StronglySorted lt (take idx (argsort Nat.leb idx)).
Proof.
  intros Hd. rewrite take_argsort by (exact nat_leb_total || exact nat_leb_trans).
  assert (Hn : NoDup (map snd (sorted_pairs Nat.leb idx))).
  { eapply Permutation_NoDup; [|exact Hd]. unfold sorted_pairs. symmetry. rewrite isort_perm. unfold enumerate.
    rewrite map_snd_combine; [reflexivity|]. rewrite seq_length. lia. }
  pose proof (sorted_pairs_sorted Nat.leb nat_leb_total nat_leb_trans idx) as Hs.
  apply strongly_sorted_map. induction (sorted_pairs Nat.leb idx) as [|x l IH]; [constructor|].
  inversion Hs as [|? ? Hs' Hx]; subst. cbn in Hn. inversion Hn as [|? ? Hnx Hn']; subst.
  constructor; auto. rewrite Forall_forall in *. intros y Hy. destruct (Hx y Hy) as [H1 _]. apply Nat.leb_le in H1.
  assert (snd x <> snd y); [|lia]. intros E. apply Hnx. rewrite E. now apply in_map.
Qed.

Lemma seq_sorted k n : StronglySorted lt (seq k n).
Proof.
  revert k; induction n as [|n IH]; intros k; cbn; constructor; auto. rewrite Forall_forall. intros x Hx.
  apply in_seq in Hx. lia.
Qed.

Lemma filter_sorted (f : nat -> bool) l : StronglySorted lt l -> StronglySorted lt (filter f l).
Proof.
  induction 1 as [|a l H IH Ha]; cbn; [constructor|]. destruct (f a); auto. constructor; auto.
  rewrite Forall_forall in *. intros x Hx. apply filter_In in Hx. apply Ha. tauto.
Qed.

(** [argsort] of a permutation is its inverse. *)
Lemma argsort_inverse k n v : Permutation k (seq 0 n) -> v < n ->
  exists j, nth_error (argsort Nat.leb k) v = Some j /\ nth_error k j = Some v.
Proof.
  intros Hp Hv. assert (Hd : NoDup k) by (eapply Permutation_NoDup; [symmetry; exact Hp|apply seq_NoDup]).
  pose proof (take_argsort_sorted k Hd) as Hs.
  rewrite take_argsort in Hs by (exact nat_leb_total || exact nat_leb_trans).
  assert (E : map snd (sorted_pairs Nat.leb k) = seq 0 n).
  { apply StronglySorted_lt_ext; [exact Hs|apply seq_sorted|]. intros x.
    assert (Hq : Permutation (map snd (sorted_pairs Nat.leb k)) (seq 0 n)).
    { unfold sorted_pairs. rewrite isort_perm. unfold enumerate. rewrite map_snd_combine; [exact Hp|]. rewrite seq_length. lia. }
    split; apply Permutation_in; [exact Hq|symmetry; exact Hq]. }
  assert (Hn : nth_error (map snd (sorted_pairs Nat.leb k)) v = Some v).
  { rewrite E. rewrite nth_error_nth' with (d := 0) by now rewrite seq_length. now rewrite seq_nth. }
  rewrite nth_error_map in Hn. destruct (nth_error (sorted_pairs Nat.leb k) v) as [[j w]|] eqn:F; [|discriminate].
  cbn in Hn. injection Hn as ->. exists j. split.
  - rewrite argsort_eq, nth_error_map, F. reflexivity.
  - apply (sorted_pairs_In Nat.leb). eapply nth_error_In; eauto.
Qed.

(** Assignment through a permutation. *)
Lemma assign_nth {A} (pairs : list (nat * A)) : forall acc i v,
  NoDup (map fst pairs) -> In (i, v) pairs -> i < length acc ->
  nth_error (fold_left (fun acc pi => upd (fst pi) (snd pi) acc) pairs acc) i = Some v.
Proof.
  assert (K : forall pairs (acc : list A) i, ~ In i (map fst pairs) ->
     nth_error (fold_left (fun acc pi => upd (fst pi) (snd pi) acc) pairs acc) i = nth_error acc i).
  { clear pairs. induction pairs as [|[j w] pairs IH]; intros acc i Hi; cbn; auto. cbn in Hi. rewrite IH by tauto.
    rewrite nth_error_upd. destruct (Nat.eqb_spec j i); [subst; tauto|reflexivity]. }
  induction pairs as [|[j w] pairs IH]; intros acc i v Hd Hin Hi; [destruct Hin|]. cbn in *.
  inversion Hd as [|? ? Hj Hd']; subst. destruct Hin as [E|Hin].
  - injection E as -> ->. rewrite K by auto. rewrite nth_error_upd, Nat.eqb_refl.
    destruct (Nat.ltb_spec i (length acc)); auto; lia.
  - apply IH; auto. now rewrite upd_length.
Qed.
Lemma assign_length {A} (pairs : list (nat * A)) acc :
  length (fold_left (fun acc pi => upd (fst pi) (snd pi) acc) pairs acc) = length acc.
Proof. revert acc; induction pairs as [|p pairs IH]; intros acc; cbn; auto. now rewrite IH, upd_length. Qed.

(** ** Deduplication as in stl and vtk readers:
    [k = argsort(idx); points = pts[idx[k]]; inv_k = argsort(k); inv_k[inv]]. *)
Section Dedup.
Context {P : Type} (le : P -> P -> bool).
Hypothesis total : forall a b, le a b = true \/ le b a = true.
Hypothesis trans : forall a b c, le a b = true -> le b c = true -> le a c = true.

Lemma unique_index_NoDup pts : NoDup (unique_index le pts).
Proof.
  rewrite unique_index_eq. destruct (runs_sorted_pairs le total trans pts) as (_ & H2 & H3). fold (heads le pts) in *.
  assert (Hd : NoDup (map fst (sorted_pairs le pts))).
  { eapply Permutation_NoDup; [symmetry; apply (argsort_perm le pts)|apply seq_NoDup]. }
  unfold heads, select. remember (run_mask le (map snd (sorted_pairs le pts))) as mask. clear - Hd.
  revert mask. induction (sorted_pairs le pts) as [|x l IH]; intros mask; [rewrite combine_nil; constructor|].
  destruct mask as [|m mask]; [constructor|]. cbn in Hd. inversion Hd as [|? ? Hx Hd']; subst. cbn [combine filter fst].
  destruct m; [|auto]. cbn [map snd]. constructor; [|auto]. intros C. apply Hx. apply in_map_iff in C.
  destruct C as (y & E & Hy). rewrite <- E. apply in_map. apply in_map_iff in Hy. destruct Hy as ([m' z] & <- & Hz).
  apply filter_In in Hz. eapply in_combine_r, Hz.
Qed.
Lemma unique_index_In pts i : In i (unique_index le pts) <-> is_first le pts i.
Proof.
  rewrite unique_index_eq, in_map_iff. split.
  - intros ([j p] & <- & H). apply heads_first in H; tauto.
  - intros H. destruct H as (p & Hp & Hf). exists (i, p). split; [reflexivity|]. apply heads_first; auto. split; auto. exists p. auto.
Qed.

Lemma unique_inverse_ok pts i p : nth_error pts i = Some p ->
  exists r j q, nth_error (unique_inverse le pts) i = Some r /\ nth_error (unique_index le pts) r = Some j /\
    nth_error pts j = Some q /\ eqv le q p = true.
Proof.
  intros Hp. unfold unique_inverse. rewrite unique_index_eq.
  rewrite take_argsort, argsort_eq.
  destruct (runs_sorted_pairs le total trans pts) as (H1 & _ & H3). fold (heads le pts) in *.
  assert (Hs : In (i, p) (sorted_pairs le pts)) by now apply sorted_pairs_In.
  apply In_nth_error in Hs. destruct Hs as [n Hn]. destruct (H1 n _ Hn) as (r & [j q] & R1 & R2 & R3 & R4).
  exists r, j, q. split; [|split; [|split]]; auto.
  - set (imask := map pred (cumsum (map b2n (run_mask le (map snd (sorted_pairs le pts)))))) in *.
    assert (Hl : length imask = length (sorted_pairs le pts)).
    { unfold imask, cumsum. rewrite map_length.
      assert (L : forall c l, length (cumsum_from c l) = length l) by (intros c l; revert c; induction l; cbn; auto).
      rewrite L, map_length. assert (L2 : forall a l, length (differs le a l) = length l)
        by (intros a l; revert a; induction l; cbn; auto).
      destruct (sorted_pairs le pts) as [|x l]; [reflexivity|]. cbn. now rewrite L2, map_length. }
    apply assign_nth.
    + rewrite map_fst_combine by (rewrite map_length; lia).
      eapply Permutation_NoDup; [symmetry; apply (argsort_perm le pts)|apply seq_NoDup].
    + eapply nth_error_In with (n := n). apply nth_error_combine. split; [|exact R1].
      rewrite nth_error_map, Hn. reflexivity.
    + rewrite repeat_length. apply nth_error_Some. congruence.
  - rewrite nth_error_map, R2. reflexivity.
  - apply (sorted_pairs_In le). apply H3. eapply nth_error_In; eauto.
Qed.
Lemma unique_inverse_length pts : length (unique_inverse le pts) = length pts.
Proof. unfold unique_inverse. rewrite assign_length. apply repeat_length. Qed.

Definition dedup_points (pts : list P) : list P :=
  let idx := unique_index le pts in take pts (take idx (argsort Nat.leb idx)).
Definition dedup_index (pts : list P) : list nat :=
  let idx := unique_index le pts in
  take (argsort Nat.leb (argsort Nat.leb idx)) (unique_inverse le pts).

(** Positions of the first occurrences, in order. *)
Definition firstb (pts : list P) (i : nat) : bool :=
  match nth_error pts i with
  | Some p => forallb (fun q => negb (eqv le p q)) (firstn i pts)
  | None => false
  end.
Lemma firstb_ok pts i : firstb pts i = true <-> is_first le pts i.
Proof.
  unfold firstb, is_first. destruct (nth_error pts i) as [p|] eqn:E; split.
  - intros H. exists p. split; [reflexivity|]. intros j q Hj Hq. rewrite forallb_forall in H.
    apply negb_true_iff, H. apply nth_error_In with (n := j). rewrite nth_error_firstn'.
    destruct (Nat.ltb_spec j i); [exact Hq|lia].
  - intros (p' & E' & Hf). injection E' as <-. apply forallb_forall. intros q Hq. apply In_nth_error in Hq.
    destruct Hq as [j Hj]. rewrite nth_error_firstn' in Hj. destruct (Nat.ltb_spec j i); [|discriminate].
    apply negb_true_iff. eauto.
  - discriminate.
  - intros (p' & E' & _). discriminate.
Qed.

Lemma sorted_index pts : let idx := unique_index le pts in
  take idx (argsort Nat.leb idx) = filter (firstb pts) (seq 0 (length pts)).
Proof.
  cbv zeta. apply StronglySorted_lt_ext.
  - apply take_argsort_sorted, unique_index_NoDup.
  - clear. assert (G : forall l, StronglySorted lt l -> StronglySorted lt (filter (firstb pts) l)).
    { induction 1 as [|a l H IH Ha]; cbn; [constructor|]. destruct (firstb pts a); auto. constructor; auto.
      rewrite Forall_forall in *. intros x Hx. apply filter_In in Hx. apply Ha. tauto. }
    apply G, seq_sorted.
  - intros i. rewrite filter_In, in_seq, firstb_ok, <- unique_index_In.
    rewrite take_argsort by (exact nat_leb_total || exact nat_leb_trans).
    assert (Hq : Permutation (map snd (sorted_pairs Nat.leb (unique_index le pts))) (unique_index le pts)).
    { unfold sorted_pairs. rewrite isort_perm. unfold enumerate. rewrite map_snd_combine; [reflexivity|]. rewrite seq_length. lia. }
    split.
    + intros H. assert (In i (unique_index le pts)) by (eapply Permutation_in; eauto). split; [|auto]. split; [lia|].
      apply unique_index_In in H0. destruct H0 as (p & Hp & _). apply nth_error_Some. congruence.
    + intros [_ H]. eapply Permutation_in; [symmetry|]; eauto.
Qed.

Theorem dedup_points_ok pts : dedup_points pts = take pts (filter (firstb pts) (seq 0 (length pts))).
Proof. unfold dedup_points. now rewrite sorted_index. Qed.

Theorem dedup_index_ok pts : length (dedup_index pts) = length pts /\
  forall i p, nth_error pts i = Some p -> exists r q,
    nth_error (dedup_index pts) i = Some r /\ nth_error (dedup_points pts) r = Some q /\ eqv le q p = true.
Proof.
  set (idx := unique_index le pts). set (k := argsort Nat.leb idx).
  assert (Hk : Permutation k (seq 0 (length idx))) by apply argsort_perm.
  assert (Hik : length (argsort Nat.leb k) = length idx).
  { rewrite (Permutation_length (argsort_perm Nat.leb k)), seq_length.
    now rewrite (Permutation_length Hk), seq_length. }
  assert (Hinv : Forall (fun r => r < length (argsort Nat.leb k)) (unique_inverse le pts)).
  { apply Forall_forall. intros r Hr. apply In_nth_error in Hr. destruct Hr as [i Hi].
    assert (i < length pts) by (rewrite <- (unique_inverse_length pts); apply nth_error_Some; congruence).
    destruct (nth_error pts i) as [p|] eqn:E; [|apply nth_error_None in E; lia].
    destruct (unique_inverse_ok pts i p E) as (r' & j & q & R1 & R2 & _). rewrite Hi in R1. injection R1 as <-.
    rewrite Hik. apply nth_error_Some. unfold idx. congruence. }
  split.
  - unfold dedup_index. fold idx k. rewrite take_length by exact Hinv. apply unique_inverse_length.
  - intros i p Hp. destruct (unique_inverse_ok pts i p Hp) as (r & j & q & R1 & R2 & R3 & R4).
    assert (Hr : r < length idx) by (apply nth_error_Some; unfold idx; congruence).
    destruct (argsort_inverse k (length idx) r Hk Hr) as (n & N1 & N2).
    exists n, q. split; [|split; [|exact R4]].
    + unfold dedup_index. fold idx k. rewrite take_nth by exact Hinv. now rewrite R1.
    + unfold dedup_points. fold idx. fold k.
      assert (Hki : Forall (fun i => i < length idx) k).
      { apply Forall_forall. intros x Hx. eapply Permutation_in in Hx; [|exact Hk]. apply in_seq in Hx. lia. }
      assert (Hti : Forall (fun i => i < length pts) (take idx k)).
      { apply Forall_forall. intros x Hx. apply In_nth_error in Hx. destruct Hx as [m Hm].
        rewrite take_nth in Hm by exact Hki. destruct (nth_error k m); [|discriminate].
        apply nth_error_In in Hm. apply unique_index_In in Hm. destruct Hm as (y & Hy & _). apply nth_error_Some. congruence. }
      rewrite take_nth by exact Hti. rewrite take_nth by exact Hki. rewrite N2. unfold idx. now rewrite R2.
Qed.

(** The points kept are pairwise different and occur in the input. *)
Theorem dedup_points_distinct pts : ForallOrdPairs (fun a b => eqv le a b = false) (dedup_points pts).
Proof.
  rewrite dedup_points_ok. assert (G : forall l, StronglySorted lt l -> (forall i, In i l -> firstb pts i = true) ->
    ForallOrdPairs (fun a b => eqv le a b = false) (take pts l)).
  { induction 1 as [|i l H IH Hi]; intros Hf; cbn; [constructor|].
    assert (Fi := Hf i (or_introl eq_refl)). apply firstb_ok in Fi. destruct Fi as (p & Hp & _). rewrite Hp. cbn.
    constructor; [|apply IH; intros; apply Hf; now right]. rewrite Forall_forall in *. intros q Hq.
    unfold take in Hq. apply in_flat_map in Hq. destruct Hq as (j & Hj & Hq). specialize (Hi j Hj).
    assert (Fj := Hf j (or_intror Hj)). apply firstb_ok in Fj. destruct Fj as (q' & Hq' & Hn). rewrite Hq' in Hq.
    destruct Hq as [->|[]]. rewrite eqv_sym. eauto. }
  apply G.
  - assert (G' : forall l, StronglySorted lt l -> StronglySorted lt (filter (firstb pts) l)).
    { clear. induction 1 as [|a l H IH Ha]; cbn; [constructor|]. destruct (firstb pts a); auto. constructor; auto.
      rewrite Forall_forall in *. intros x Hx. apply filter_In in Hx. apply Ha. tauto. }
    apply G', seq_sorted.
  - intros i Hi. apply filter_In in Hi. tauto.
Qed.
Theorem dedup_points_incl pts : incl (dedup_points pts) pts.
Proof.
  intros p Hp. unfold dedup_points, take in Hp. apply in_flat_map in Hp. destruct Hp as (i & _ & Hp).
  destruct (nth_error pts i) eqn:E; [|destruct Hp]. destruct Hp as [<-|[]]. eapply nth_error_In; eauto.
Qed.
End Dedup.
