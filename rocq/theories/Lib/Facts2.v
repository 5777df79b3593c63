(** More facts about lists and [mapM]. *)
From Verif.Lib Require Import Base Facts Runs.

Lemma mapM_Forall2 {A B} (f : A -> result B) l r :
  mapM f l = Ok r <-> Forall2 (fun x y => f x = Ok y) l r.
Proof.
  revert r; induction l as [|x xs IH]; intros r; cbn.
  - split; [intros H; injection H as <-; constructor|]. intros H; inversion H; reflexivity.
  - split.
    + destruct (f x) as [y|] eqn:E; [|discriminate]. cbn. destruct (mapM f xs) as [ys|] eqn:E2; [|discriminate].
      cbn. intros H. injection H as <-. constructor; auto. now apply IH.
    + intros H. inversion H as [|? y ? ys H1 H2]; subst. rewrite H1. cbn.
      apply IH in H2. rewrite H2. reflexivity.
Qed.

Lemma Forall2_nth_intro {A B} (P : A -> B -> Prop) l r :
  length l = length r ->
  (forall i x y, nth_error l i = Some x -> nth_error r i = Some y -> P x y) -> Forall2 P l r.
Proof.
  revert r; induction l as [|x l IH]; intros [|y r] Hl H; try discriminate; constructor.
  - apply (H 0); reflexivity.
  - apply IH; [cbn in Hl; lia|]. intros i. apply (H (S i)).
Qed.

Lemma mapM_nth {A B} (f : A -> result B) l r :
  length l = length r ->
  (forall i x y, nth_error l i = Some x -> nth_error r i = Some y -> f x = Ok y) ->
  mapM f l = Ok r.
Proof. intros. apply mapM_Forall2. now apply Forall2_nth_intro. Qed.

Lemma mapM_app {A B} (f : A -> result B) l1 l2 r1 r2 :
  mapM f l1 = Ok r1 -> mapM f l2 = Ok r2 -> mapM f (l1 ++ l2) = Ok (r1 ++ r2).
Proof. rewrite !mapM_Forall2. apply Forall2_app. Qed.

Lemma mapM_ext_in {A B} (f g : A -> result B) l :
  (forall x, In x l -> f x = g x) -> mapM f l = mapM g l.
Proof.
  induction l as [|x l IH]; intros H; cbn; auto. rewrite H by (now left). rewrite IH; auto.
  intros y Hy. apply H. now right.
Qed.

Lemma nth_error_skipn' {A} (l : list A) s i : nth_error (skipn s l) i = nth_error l (s + i).
Proof.
  revert l; induction s as [|s IH]; intros l; cbn; auto. destruct l; cbn; auto. now destruct i.
Qed.

Lemma nth_error_firstn' {A} (l : list A) n i :
  nth_error (firstn n l) i = if Nat.ltb i n then nth_error l i else None.
Proof.
  revert l i; induction n as [|n IH]; intros l i; [now destruct i|].
  destruct l as [|x l]; [destruct (Nat.ltb i (S n)); destruct i; reflexivity|].
  destruct i as [|i]; [reflexivity|]. cbn [firstn nth_error]. rewrite IH. reflexivity.
Qed.

Lemma nth_error_slice {A} (l : list A) s e i :
  nth_error (slice s e l) i = if Nat.ltb i (e - s) then nth_error l (s + i) else None.
Proof. unfold slice. now rewrite nth_error_firstn', nth_error_skipn'. Qed.

Lemma slice_length {A} (l : list A) s e : e <= length l -> length (slice s e l) = e - s.
Proof. intros H. unfold slice. rewrite firstn_length, skipn_length. lia. Qed.

Lemma slice_all {A} (l : list A) : slice 0 (length l) l = l.
Proof. unfold slice. cbn. rewrite Nat.sub_0_r. apply firstn_all. Qed.

Lemma map_slice {A B} (f : A -> B) s e l : map f (slice s e l) = slice s e (map f l).
Proof. unfold slice. now rewrite skipn_map, firstn_map. Qed.

Lemma nth_error_split_at {A} (l : list A) i x :
  nth_error l i = Some x -> l = firstn i l ++ x :: skipn (S i) l.
Proof.
  revert l; induction i as [|i IH]; intros [|y l]; cbn; try discriminate.
  - intros H. injection H as ->. reflexivity.
  - intros H. f_equal. now apply IH.
Qed.

Lemma nth_error_lt {A} (l : list A) i x : nth_error l i = Some x -> i < length l.
Proof. intros H. apply nth_error_Some. congruence. Qed.

(** Reading consecutive entries. *)
Lemma gather_seq {A} (pre x post : list A) :
  gather (pre ++ x ++ post)
    (map (fun i => (Z.of_nat (length pre) + Z.of_nat i)%Z) (seq 0 (length x))) = Ok x.
Proof.
  apply mapM_nth.
  - now rewrite map_length, seq_length.
  - intros i j y Hi Hy. rewrite nth_error_map in Hi.
    assert (Hlt := nth_error_lt _ _ _ Hy).
    rewrite (nth_error_nth' _ 0) in Hi by (rewrite seq_length; lia).
    rewrite seq_nth in Hi by lia. cbn in Hi. injection Hi as <-.
    rewrite <- Nat2Z.inj_add, znth_nat.
    rewrite nth_error_app2 by lia. replace (length pre + i - length pre) with i by lia.
    rewrite nth_error_app1 by lia. rewrite Hy. reflexivity.
Qed.

Lemma gather_perm {A} (pre x post y : list A) p :
  permute p x = Some y ->
  gather (pre ++ x ++ post) (map (fun i => (Z.of_nat (length pre) + Z.of_nat i)%Z) p) = Ok y.
Proof.
  unfold permute, gather. revert y; induction p as [|i p IH]; intros y; cbn.
  - intros H. injection H as <-. reflexivity.
  - destruct (nth_error x i) as [a|] eqn:E; [|discriminate].
    destruct (mapO _ p) as [ys|] eqn:E2; [|discriminate]. intros H. injection H as <-.
    rewrite <- Nat2Z.inj_add, znth_nat.
    rewrite nth_error_app2 by lia. replace (length pre + i - length pre) with i by lia.
    rewrite nth_error_app1 by (eapply nth_error_lt; eauto). rewrite E. cbn.
    rewrite (IH ys eq_refl). reflexivity.
Qed.

Lemma app_inj_length {A} (l1 l2 r1 r2 : list A) :
  l1 ++ l2 = r1 ++ r2 -> length l1 = length r1 -> l1 = r1 /\ l2 = r2.
Proof.
  revert r1; induction l1 as [|x l1 IH]; intros [|y r1] H Hl; try discriminate; auto.
  cbn in *. injection H as -> H. destruct (IH r1 H) as [-> ->]; auto.
Qed.
