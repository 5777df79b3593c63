(** Proofs about string helpers, raw cell data and the type tables (C08-C10, C59). *)
From Verif.Lib Require Import Base Facts Text TextFacts.
From Verif.Model Require Import Core.
From Verif.Spec Require Import Core.

(** ** C08 *)
Lemma is_in_any_forall c l :
  is_in_any c l = false <-> forallb (fun s => negb (char_in c s)) l = true.
Proof.
  unfold is_in_any. induction l as [|x xs IH]; cbn; [tauto|].
  destruct (char_in c x); cbn; [split; discriminate|auto].
Qed.

Lemma join_strings_ok l j c :
  join_strings l = Ok (j, c) ->
  In c join_chars /\ is_in_any c l = false /\ j = join (String c "") l.
Proof.
  unfold join_strings. destruct (find _ join_chars) as [c'|] eqn:E; [|discriminate].
  intros H. injection H as <- <-. apply find_some in E. destruct E as [E1 E2].
  apply negb_true_iff in E2. auto.
Qed.

Lemma join_strings_split l j c :
  l <> [] -> join_strings l = Ok (j, c) -> split_char c j = l.
Proof.
  intros Hne H. apply join_strings_ok in H. destruct H as (_ & H & ->).
  apply split_join_char; auto. now apply is_in_any_forall.
Qed.

Lemma char_in_get c s : char_in c s = true <-> exists i, String.get i s = Some c.
Proof.
  induction s as [|a s IH]; cbn.
  - split; [discriminate|]. intros [i H]. destruct i; discriminate.
  - rewrite orb_true_iff, IH, Ascii.eqb_eq. split.
    + intros [->|[i H]]; [now exists 0|now exists (S i)].
    + intros [[|i] H]; cbn in H; [left; congruence|eauto].
Qed.

Lemma join_strings_err l :
  (exists e, join_strings l = Err e) <->
  (forall c, In c join_chars -> exists s i, In s l /\ String.get i s = Some c).
Proof.
  unfold join_strings. destruct (find _ join_chars) as [c|] eqn:E.
  - apply find_some in E. destruct E as [E1 E2]. apply negb_true_iff in E2. split.
    + intros [e H]. discriminate.
    + intros H. exfalso. destruct (H c E1) as (s & i & Hs & Hi).
      assert (is_in_any c l = true) as X; [|congruence].
      apply existsb_exists. exists s. split; auto. apply char_in_get. eauto.
  - split; [|eauto]. intros _ c Hc. assert (X := find_none _ _ E c Hc). apply negb_false_iff in X.
    apply existsb_exists in X. destruct X as [s [Hs Hin]]. apply char_in_get in Hin.
    destruct Hin as [i Hi]. eauto.
Qed.

(** ** C09 *)
Lemma replace_char_length a b s : String.length (replace_char a b s) = String.length s.
Proof. induction s as [|x s IH]; cbn; auto. Qed.

Lemma replace_char_back a b s :
  char_in b s = false -> replace_char b a (replace_char a b s) = s.
Proof.
  induction s as [|x s IH]; cbn; intros H; auto.
  apply orb_false_iff in H. destruct H as [H1 H2]. rewrite IH by auto.
  destruct (Ascii.eqb_spec x a) as [->|Hne].
  - now rewrite Ascii.eqb_refl.
  - rewrite Ascii.eqb_sym, H1. reflexivity.
Qed.

Lemma replace_char_gone a b s : a <> b -> char_in a (replace_char a b s) = false.
Proof.
  intros Hne. induction s as [|x s IH]; cbn; auto. rewrite IH, orb_false_r.
  destruct (Ascii.eqb_spec x a) as [->|Hx]; apply Ascii.eqb_neq; congruence.
Qed.

Lemma replace_space_ok s t c :
  replace_space s = Ok (t, c) ->
  char_in " " t = false /\ String.length t = String.length s /\ replace_char c " " t = s.
Proof.
  unfold replace_space. destruct (find _ space_chars) as [c'|] eqn:E; [|discriminate].
  intros H. injection H as <- <-. apply find_some in E. destruct E as [E1 E2].
  apply negb_true_iff in E2. split; [|split].
  - apply replace_char_gone. intros <-. cbn in E1. intuition discriminate.
  - apply replace_char_length.
  - now apply replace_char_back.
Qed.

Lemma replace_space_err s :
  (exists e, replace_space s = Err e) <-> (forall c, In c space_chars -> char_in c s = true).
Proof.
  unfold replace_space. destruct (find _ space_chars) as [c|] eqn:E.
  - apply find_some in E. destruct E as [E1 E2]. apply negb_true_iff in E2. split.
    + intros [e H]. discriminate.
    + intros H. rewrite (H c E1) in E2. discriminate.
  - split; [|eauto]. intros _ c Hc. assert (X := find_none _ _ E c Hc). now apply negb_false_iff in X.
Qed.

(** ** C10 *)
Lemma skipn_skipn {A} a b (l : list A) : skipn a (skipn b l) = skipn (b + a) l.
Proof.
  revert l; induction b as [|b IH]; intros l; cbn; auto. destruct l; cbn; auto.
  now rewrite skipn_nil.
Qed.

Lemma butlast_cons2 {A} (x y : A) l : butlast (x :: y :: l) = x :: butlast (y :: l).
Proof. reflexivity. Qed.

Lemma np_split_lens {A} lens start (l : list A) :
  lens <> [] -> length l = start + sum_nat lens ->
  np_split_from start (butlast (cumsum_from start lens)) l = split_lens lens (skipn start l).
Proof.
  revert start; induction lens as [|n ns IH]; intros start Hne Hl; [congruence|].
  destruct ns as [|n2 ns].
  - cbn. f_equal. cbn in Hl. rewrite firstn_all2; auto. rewrite skipn_length. lia.
  - cbn [cumsum_from]. rewrite butlast_cons2. cbn [np_split_from split_lens]. f_equal.
    + unfold slice. f_equal. lia.
    + change (start + n + n2 :: cumsum_from (start + n + n2) ns)
        with (cumsum_from (start + n) (n2 :: ns)).
      rewrite IH; [|discriminate|cbn in Hl |- *; lia]. now rewrite skipn_skipn.
Qed.

Lemma from_raw_split {A} lens (r : list A) :
  lens <> [] -> length r = sum_nat lens ->
  cell_data_from_raw1 lens r = split_lens lens r.
Proof. intros Hne Hl. unfold cell_data_from_raw1, np_split, cumsum. rewrite np_split_lens; auto. Qed.

Lemma from_raw_to_raw {A} (d : list (list A)) :
  d <> [] -> cell_data_from_raw1 (map (@length A) d) (concat d) = d.
Proof.
  intros Hne. rewrite from_raw_split.
  - apply split_lens_concat.
  - destruct d; [congruence|discriminate].
  - apply concat_length_sum.
Qed.

Lemma np_split_concat_mono {A} points start (l : list A) :
  (forall i p, nth_error points i = Some p -> start <= p) ->
  (forall i j p q, i < j -> nth_error points i = Some p -> nth_error points j = Some q -> p <= q) ->
  concat (np_split_from start points l) = skipn start l.
Proof.
  revert start; induction points as [|p ps IH]; intros start Hs Hm; cbn; [apply app_nil_r|].
  rewrite IH.
  - unfold slice. assert (start <= p) by (apply (Hs 0); auto).
    rewrite <- (firstn_skipn (p - start) (skipn start l)) at 2. rewrite skipn_skipn.
    replace (start + (p - start)) with p by lia. reflexivity.
  - intros i q Hq. apply (Hm 0 (S i)); auto. lia.
  - intros i j q1 q2 Hij H1 H2. apply (Hm (S i) (S j)); auto. lia.
Qed.

Lemma cumsum_from_ge acc l i p : nth_error (cumsum_from acc l) i = Some p -> acc <= p.
Proof.
  revert acc i; induction l as [|x xs IH]; intros acc [|i]; cbn; try discriminate.
  - intros H; injection H as <-. lia.
  - intros H. apply IH in H. lia.
Qed.

Lemma cumsum_from_mono acc l i j p q : i < j ->
  nth_error (cumsum_from acc l) i = Some p -> nth_error (cumsum_from acc l) j = Some q -> p <= q.
Proof.
  revert acc i j; induction l as [|x xs IH]; intros acc [|i] [|j]; cbn; intros Hij; try lia; try discriminate.
  - intros H1 H2. injection H1 as <-. now apply cumsum_from_ge in H2.
  - apply IH. lia.
Qed.

Lemma nth_error_butlast {A} (l : list A) i x : nth_error (butlast l) i = Some x -> nth_error l i = Some x.
Proof.
  revert i; induction l as [|a l IH]; intros i; [auto|].
  destruct l as [|b l]; [destruct i; discriminate|]. rewrite butlast_cons2. destruct i; cbn; auto.
Qed.

Lemma concat_from_raw {A} lens (r : list A) : concat (cell_data_from_raw1 lens r) = r.
Proof.
  unfold cell_data_from_raw1, np_split. rewrite np_split_concat_mono; auto.
  - intros; lia.
  - intros i j p q Hij H1 H2. eapply cumsum_from_mono; eauto using nth_error_butlast.
Qed.

Lemma split_lens_lengths {A} lens (l : list A) :
  length l = sum_nat lens -> map (@length A) (split_lens lens l) = lens.
Proof.
  revert l; induction lens as [|n ns IH]; intros l Hl; cbn in *; auto.
  rewrite firstn_length, IH by (rewrite skipn_length; lia). f_equal. lia.
Qed.

Lemma raw_roundtrip {A} lens (cd : dict (list (list A))) :
  lens <> [] -> (forall name d, In (name, d) cd -> map (@length A) d = lens) ->
  exists raw, raw_from_cell_data cd = Ok raw /\ cell_data_from_raw lens raw = cd.
Proof.
  intros Hne. unfold raw_from_cell_data, cell_data_from_raw.
  induction cd as [|[name d] cd IH]; intros H.
  - exists []. auto.
  - destruct IH as (raw & H1 & H2); [intros; eapply H; right; eauto|].
    assert (Hd : map (@length A) d = lens) by (eapply H; left; reflexivity).
    assert (d <> []) by (intros ->; cbn in Hd; congruence).
    exists ((name, concat d) :: raw). cbn [mapM snd fst]. destruct d as [|d0 ds] eqn:E; [congruence|].
    rewrite <- E in *. cbn [bind]. rewrite H1. cbn [bind map fst snd]. split; auto.
    f_equal; auto. f_equal. subst lens. now apply from_raw_to_raw.
Qed.

Lemma raw_roundtrip_back {A} lens (raw : dict (list A)) :
  lens <> [] ->
  raw_from_cell_data (cell_data_from_raw lens raw) = Ok raw.
Proof.
  intros Hne. unfold raw_from_cell_data, cell_data_from_raw.
  induction raw as [|[name r] raw IH]; cbn [map mapM fst snd]; auto.
  destruct (cell_data_from_raw1 lens r) as [|x xs] eqn:E.
  - exfalso. unfold cell_data_from_raw1, np_split in E.
    destruct (butlast (cumsum lens)); discriminate.
  - rewrite <- E, concat_from_raw, IH. reflexivity.
Qed.
