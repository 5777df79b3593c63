(** Proofs about the grouping of Exodus variables. *)
From Verif.Lib Require Import Base Facts Facts2.
From Verif.Model Require Import Core Exodus.
From Verif.Spec Require Import Info.
From Verif.Proofs Require Import Xdmf.
From Coq Require Import Lia.

Lemma sub_split s : forall m, m <= String.length s -> (substring 0 m s ++ substring m (String.length s - m) s)%string = s.
Proof.
  induction s as [|c s IH]; intros m H.
  - cbn in H. replace m with 0 by lia. reflexivity.
  - destruct m as [|m]; cbn in *.
    + f_equal. specialize (IH 0 ltac:(lia)). rewrite Nat.sub_0_r in IH. destruct s; cbn in *; auto.
    + now rewrite IH by lia.
Qed.
Lemma end_split n s : (cut_end n s ++ tail_end n s)%string = s.
Proof.
  unfold cut_end, tail_end. replace (Nat.min n (String.length s)) with (String.length s - (String.length s - n)) by lia.
  apply sub_split. lia.
Qed.
Lemma slen_app a b : String.length (a ++ b)%string = String.length a + String.length b.
Proof. induction a; cbn; congruence. Qed.
Lemma app_split a : forall b x y, String.length x = String.length y -> (a ++ x)%string = (b ++ y)%string -> a = b /\ x = y.
Proof.
  induction a as [|c a IH]; intros [|d b] x y L E; cbn in E.
  - auto.
  - apply (f_equal String.length) in E. cbn in E. rewrite slen_app in E. lia.
  - apply (f_equal String.length) in E. cbn in E. rewrite slen_app in E. lia.
  - injection E as -> E. apply IH in E as [-> ->]; auto.
Qed.
Lemma cut_tail_app n a x : String.length x = n -> cut_end n (a ++ x)%string = a /\ tail_end n (a ++ x)%string = x.
Proof.
  intros L. apply app_split; [|apply end_split].
  assert (H : forall s k, k <= String.length s -> forall m, m + k <= String.length s -> String.length (substring m k s) = k).
  { clear. induction s as [|c s IH]; intros k Hk m Hm; cbn in *.
    - replace k with 0 by lia. now destruct m.
    - destruct m, k; cbn; auto; try (rewrite IH; lia). }
  unfold tail_end. rewrite H; rewrite ?slen_app; lia.
Qed.

Lemma index_of_some s names i : index_of s names = Some i -> nth_error names i = Some s.
Proof.
  revert i; induction names as [|x l IH]; intros i E; cbn in E; [discriminate|].
  destruct (String.eqb_spec x s) as [->|]; [now injection E as <-|].
  destruct (index_of s l); [|discriminate]. injection E as <-. cbn. now apply IH.
Qed.
Lemma index_of_none s names : index_of s names = None -> ~ In s names.
Proof.
  induction names as [|x l IH]; cbn; intros E; [tauto|]. destruct (String.eqb_spec x s); [discriminate|].
  destruct (index_of s l); [discriminate|]. intros [->|H]; [tauto|]. now apply IH.
Qed.
Lemma index_of_nodup s names i : NoDup names -> nth_error names i = Some s -> index_of s names = Some i.
Proof.
  intros N E. destruct (index_of s names) as [j|] eqn:X.
  - apply index_of_some in X. f_equal. rewrite NoDup_nth_error in N. symmetry. apply N; [apply nth_error_Some; congruence|congruence].
  - apply index_of_none in X. exfalso. apply X. now apply (nth_error_In _ i).
Qed.
Lemma truthy_some o i : truthy o = Some i -> o = Some i /\ 0 < i.
Proof. destruct o as [[|j]|]; cbn; intros E; try discriminate. injection E as <-. split; [auto|lia]. Qed.

Definition used_true (c : cats) (j : nat) : Prop := nth j (c_used c) false = true.
Lemma nth_upd {A} n m (v d : A) l : nth m (upd n v l) d = if Nat.eqb n m then (if Nat.ltb n (length l) then v else d) else nth m l d.
Proof.
  destruct (nth_error (upd n v l) m) eqn:E.
  - rewrite (nth_error_nth _ _ d E). rewrite nth_error_upd in E. destruct (Nat.eqb n m).
    + destruct (Nat.ltb n (length l)); congruence.
    + now rewrite (nth_error_nth _ _ d E).
  - rewrite nth_overflow by now apply nth_error_None. rewrite nth_error_upd in E. destruct (Nat.eqb n m).
    + destruct (Nat.ltb n (length l)); congruence.
    + symmetry. now apply nth_overflow, nth_error_None.
Qed.

Lemma insert_two (a b d : list nat) i j : NoDup (a ++ b ++ d) -> ~ In i (a ++ b ++ d) -> ~ In j (a ++ b ++ d) -> i <> j ->
  NoDup (a ++ (b ++ [i; j]) ++ d).
Proof.
  intros N A B D. rewrite <- app_assoc. cbn [app]. rewrite app_assoc in *.
  eapply Permutation.Permutation_NoDup; [apply Permutation.Permutation_middle|]. constructor.
  - rewrite in_app_iff in *. cbn. intuition.
  - eapply Permutation.Permutation_NoDup; [apply Permutation.Permutation_middle|]. now constructor.
Qed.
Lemma insert_three (a : list nat) i j k : NoDup a -> ~ In i a -> ~ In j a -> ~ In k a -> i <> j -> i <> k -> j <> k ->
  NoDup (a ++ [i; j; k]).
Proof.
  intros N A B C. intros. eapply Permutation.Permutation_NoDup; [apply (Permutation.Permutation_app_comm [i; j; k])|].
  cbn. repeat constructor; cbn; intuition.
Qed.

Section Loop.
Context (names : list string).
Let n := length names.

(** What holds when all variables before [k] have been looked at. *)
Record inv (k : nat) (c : cats) : Prop := {
  v_len : length (c_used c) = n;
  v_used : forall j, nth j (c_used c) false = true <-> In j (grouped_vars c);
  v_done : forall j, j < k -> In j (grouped_vars c);
  v_match : groups_match names c;
  v_lead1 : forall s i, In (s, i) (c_single c) -> i < k;
  v_lead2 : forall s i j, In (s, i, j) (c_double c) -> i < k;
  v_lead3 : forall s i j l, In (s, i, j, l) (c_triple c) -> i < k }.

Lemma grouped_in c x : In x (grouped_vars c) <->
  (exists s, In (s, x) (c_single c)) \/
  (exists s i j, In (s, i, j) (c_double c) /\ (x = i \/ x = j)) \/
  (exists s i j k, In (s, i, j, k) (c_triple c) /\ (x = i \/ x = j \/ x = k)).
Proof.
  unfold grouped_vars. rewrite !in_app_iff, !in_concat, in_map_iff. split.
  - intros [([s i] & E & H)|[(l & Hl & Hx)|(l & Hl & Hx)]].
    + cbn in E. subst. eauto.
    + apply in_map_iff in Hl as (((s, i), j) & <- & H). right. left. exists s, i, j. cbn in Hx. intuition.
    + apply in_map_iff in Hl as ((((s, i), j), k) & <- & H). right. right. exists s, i, j, k. cbn in Hx. intuition.
  - intros [(s & H)|[(s & i & j & H & D)|(s & i & j & k & H & D)]].
    + left. exists (s, x). auto.
    + right. left. exists [i; j]. split; [|cbn; intuition]. apply in_map_iff. exists (s, i, j). auto.
    + right. right. exists [i; j; k]. split; [|cbn; intuition]. apply in_map_iff. exists (s, i, j, k). auto.
Qed.

Lemma grouped_single c name k x : In x (grouped_vars (add_single c name k)) <-> x = k \/ In x (grouped_vars c).
Proof.
  rewrite !grouped_in. cbn [add_single c_single c_double c_triple]. split.
  - intros [(s & H)|[H|H]]; auto. apply in_app_iff in H as [H|[E|[]]]; [eauto|]. injection E. auto.
  - intros [->|[(s & H)|[H|H]]]; auto.
    + left. exists name. apply in_app_iff. right. now left.
    + left. exists s. apply in_app_iff. auto.
Qed.
Lemma grouped_double s1 d t u st i j x : In x (grouped_vars (Cats s1 (d ++ [(st, i, j)]) t u)) <-> x = i \/ x = j \/ In x (grouped_vars (Cats s1 d t u)).
Proof.
  rewrite !grouped_in. cbn [c_single c_double c_triple]. split.
  - intros [H|[(s & a & b & H & D)|H]]; auto. apply in_app_iff in H as [H|[E|[]]].
    + right. right. right. left. eauto 6.
    + injection E as <- <- <-. tauto.
  - intros [->|[->|[H|[(s & a & b & H & D)|H]]]]; auto.
    + right. left. exists st, i, j. rewrite in_app_iff. cbn. auto.
    + right. left. exists st, i, j. rewrite in_app_iff. cbn. auto.
    + right. left. exists s, a, b. rewrite in_app_iff. cbn. auto.
Qed.
Lemma grouped_triple s1 d t u st i j k x : In x (grouped_vars (Cats s1 d (t ++ [(st, i, j, k)]) u)) <-> x = i \/ x = j \/ x = k \/ In x (grouped_vars (Cats s1 d t u)).
Proof.
  rewrite !grouped_in. cbn [c_single c_double c_triple]. split.
  - intros [H|[H|(s & a & b & e & H & D)]]; [auto 6|auto 7|]. apply in_app_iff in H as [H|[E|[]]].
    + right. right. right. right. right. eauto 8.
    + injection E as <- <- <- <-. tauto.
  - intros [->|[->|[->|[H|[H|(s & a & b & e & H & D)]]]]]; [| | |auto 6|auto 7|].
    + right. right. exists st, i, j, k. rewrite in_app_iff. cbn. auto.
    + right. right. exists st, i, j, k. rewrite in_app_iff. cbn. auto.
    + right. right. exists st, i, j, k. rewrite in_app_iff. cbn. auto 8.
    + right. right. exists s, a, b, e. rewrite in_app_iff. cbn. auto.
Qed.

Lemma upd_used u k j : k < length u -> nth j (upd k true u) false = true <-> j = k \/ nth j u false = true.
Proof.
  intros L. rewrite nth_upd. destruct (Nat.eqb_spec k j) as [->|N].
  - apply Nat.ltb_lt in L. rewrite L. tauto.
  - intuition.
Qed.

(** The outcomes of a step. *)
Inductive stepped (k : nat) (c : cats) : cats -> Prop :=
| s_skip : nth k (c_used c) false = true -> stepped k c c
| s_single name : nth k (c_used c) false = false -> nth_error names k = Some name ->
    (forall s, name = (s ++ "X")%string -> truthy (index_of (s ++ "Y")%string names) = None \/ truthy (index_of (s ++ "Z")%string names) = None) ->
    (forall s, name = (s ++ "_R")%string -> truthy (index_of (s ++ "_Z")%string names) = None) ->
    stepped k c (add_single c name k)
| s_double s iz : nth k (c_used c) false = false -> nth_error names k = Some (s ++ "_R")%string ->
    truthy (index_of (s ++ "_Z")%string names) = Some iz ->
    stepped k c (Cats (c_single c) (c_double c ++ [(s, k, iz)]) (c_triple c) (upd iz true (upd k true (c_used c))))
| s_triple s iy iz : nth k (c_used c) false = false -> nth_error names k = Some (s ++ "X")%string ->
    truthy (index_of (s ++ "Y")%string names) = Some iy -> truthy (index_of (s ++ "Z")%string names) = Some iz ->
    stepped k c (Cats (c_single c) (c_double c) (c_triple c ++ [(s, k, iy, iz)]) (upd iz true (upd iy true (upd k true (c_used c))))).

Lemma not_end s a b : String.length a = String.length b -> a <> b -> forall s', (s ++ a)%string <> (s' ++ b)%string.
Proof. intros L N s' E. apply app_split in E; tauto. Qed.
Lemma x_not_r s s' : (s ++ "X")%string <> (s' ++ "_R")%string.
Proof.
  intros E. change "_R"%string with ("_" ++ "R")%string in E. rewrite <- TextFacts.str_app_assoc in E.
  revert E. now apply not_end.
Qed.

Lemma step_ok k c : k < n -> nth_error names k <> Some ""%string ->
  exists c', cat_step names k c = Ok c' /\ stepped k c c'.
Proof.
  intros L NE. unfold cat_step. destruct (nth k (c_used c) false) eqn:U; [exists c; split; [auto|now constructor]|].
  destruct (nth_error names k) as [name|] eqn:En; [|apply nth_error_None in En; unfold n in L; lia].
  rewrite (nth_error_nth _ _ _ En). destruct (String.eqb_spec name ""); [congruence|]. cbv zeta.
  pose proof (end_split 1 name) as S1. pose proof (end_split 2 name) as S2.
  destruct (String.eqb_spec (tail_end 1 name) "X") as [T|T].
  { rewrite T in S1. assert (Q : forall s, name = (s ++ "X")%string -> s = cut_end 1 name).
    { intros s ->. symmetry. now apply cut_tail_app. }
    destruct (truthy (index_of (cut_end 1 name ++ "Y") names)) as [iy|] eqn:Ey; [destruct (truthy (index_of (cut_end 1 name ++ "Z") names)) as [iz|] eqn:Ez|].
    - eexists. split; [reflexivity|]. constructor; auto. now rewrite S1.
    - eexists. split; [reflexivity|]. constructor; auto.
      + intros s E. rewrite (Q _ E). auto.
      + intros s E. rewrite E in S1. now apply x_not_r in S1.
    - eexists. split; [reflexivity|]. constructor; auto.
      + intros s E. rewrite (Q _ E). auto.
      + intros s E. rewrite E in S1. now apply x_not_r in S1. }
  destruct (String.eqb_spec (tail_end 2 name) "_R") as [T2|T2].
  { rewrite T2 in S2. assert (Q : forall s, name = (s ++ "_R")%string -> s = cut_end 2 name).
    { intros s ->. symmetry. now apply cut_tail_app. }
    destruct (truthy (index_of (cut_end 2 name ++ "_Z") names)) as [iz|] eqn:Ez.
    - eexists. split; [reflexivity|]. constructor; auto. now rewrite S2.
    - eexists. split; [reflexivity|]. constructor; auto.
      + intros s E. rewrite E in S2. symmetry in S2. now apply x_not_r in S2.
      + intros s E. now rewrite (Q _ E). }
  eexists. split; [reflexivity|]. constructor; auto.
  - intros s E. exfalso. apply T. rewrite E. now apply cut_tail_app.
  - intros s E. exfalso. apply T2. rewrite E. now apply cut_tail_app.
Qed.

Lemma index_lt s i : index_of s names = Some i -> i < n.
Proof. intros E. apply index_of_some in E. apply nth_error_Some. unfold n. congruence. Qed.

Lemma step_inv k c c' : k < n -> inv k c -> stepped k c c' -> inv (S k) c'.
Proof.
  intros L [Vl Vu Vd [M1 [M2 M3]] L1 L2 L3] S.
  destruct S as [U|name U En _ _|s iz U En Ez|s iy iz U En Ey Ez].
  - split; auto.
    + intros j Hj. destruct (Nat.eq_dec j k) as [->|]; [now apply Vu|apply Vd; lia].
    + split; auto.
    + intros s i H. apply L1 in H. lia.
    + intros s i j H. apply L2 in H. lia.
    + intros s i j l H. apply L3 in H. lia.
  - split.
    + cbn. now rewrite upd_length.
    + intros j. rewrite grouped_single. cbn [add_single c_used]. rewrite upd_used by (rewrite Vl; auto). now rewrite Vu.
    + intros j Hj. rewrite grouped_single. destruct (Nat.eq_dec j k); [auto|right; apply Vd; lia].
    + split; [|split]; cbn [add_single c_single c_double c_triple]; auto.
      intros s i H. apply in_app_iff in H as [H|[E|[]]]; auto. injection E as <- <-. exact En.
    + intros s i H. cbn in H. apply in_app_iff in H as [H|[E|[]]]; [apply L1 in H; lia|]. injection E as <- <-. lia.
    + intros s i j H. apply L2 in H. lia.
    + intros s i j l H. apply L3 in H. lia.
  - apply truthy_some in Ez as [Ez _]. pose proof (index_lt _ _ Ez) as Lz. split.
    + cbn. now rewrite !upd_length.
    + intros j. destruct c as [s1 d t u]. cbn [c_single c_double c_triple c_used] in *. rewrite grouped_double.
      rewrite upd_used by (rewrite upd_length, Vl; auto). rewrite upd_used by (rewrite Vl; auto). rewrite Vu.
      change (grouped_vars (Cats s1 d t (upd iz true (upd k true u)))) with (grouped_vars (Cats s1 d t u)). tauto.
    + intros j Hj. destruct c as [s1 d t u]. cbn [c_single c_double c_triple] in *. rewrite grouped_double.
      destruct (Nat.eq_dec j k); [auto|right; right; apply Vd; lia].
    + split; [|split]; cbn [c_single c_double c_triple]; auto.
      intros s' i j H. apply in_app_iff in H as [H|[E|[]]]; auto. injection E as <- <- <-. split; [exact En|]. now apply index_of_some.
    + intros s' i H. cbn in H. apply L1 in H. lia.
    + intros s' i j H. cbn in H. apply in_app_iff in H as [H|[E|[]]]; [apply L2 in H; lia|]. injection E as <- <- <-. lia.
    + intros s' i j l H. apply L3 in H. lia.
  - apply truthy_some in Ez as [Ez _], Ey as [Ey _]. pose proof (index_lt _ _ Ez) as Lz. pose proof (index_lt _ _ Ey) as Ly. split.
    + cbn. now rewrite !upd_length.
    + intros j. destruct c as [s1 d t u]. cbn [c_single c_double c_triple c_used] in *. rewrite grouped_triple.
      rewrite upd_used by (rewrite !upd_length, Vl; auto). rewrite upd_used by (rewrite upd_length, Vl; auto). rewrite upd_used by (rewrite Vl; auto). rewrite Vu.
      change (grouped_vars (Cats s1 d t (upd iz true (upd iy true (upd k true u))))) with (grouped_vars (Cats s1 d t u)). tauto.
    + intros j Hj. destruct c as [s1 d t u]. cbn [c_single c_double c_triple] in *. rewrite grouped_triple.
      destruct (Nat.eq_dec j k); [auto|right; right; right; apply Vd; lia].
    + split; [|split]; cbn [c_single c_double c_triple]; auto.
      intros s' i j l H. apply in_app_iff in H as [H|[E|[]]]; auto. injection E as <- <- <- <-. split; [exact En|]. split; now apply index_of_some.
    + intros s' i H. cbn in H. apply L1 in H. lia.
    + intros s' i j H. cbn in H. apply L2 in H. lia.
    + intros s' i j l H. cbn in H. apply in_app_iff in H as [H|[E|[]]]; [apply L3 in H; lia|]. injection E as <- <- <- <-. lia.
Qed.

(** The loop as a sequence of steps. *)
Inductive steps : nat -> cats -> nat -> cats -> Prop :=
| steps_nil k c : steps k c k c
| steps_cons k c c' k2 c2 : k < n -> stepped k c c' -> steps (S k) c' k2 c2 -> steps k c k2 c2.

Lemma loop_steps m : forall k c, k + m <= n -> (forall j, k <= j < k + m -> nth_error names j <> Some ""%string) ->
  exists c', cat_loop names (seq k m) c = Ok c' /\ steps k c (k + m) c'.
Proof.
  induction m as [|m IH]; intros k c L H.
  - exists c. rewrite Nat.add_0_r. split; [reflexivity|constructor].
  - cbn [seq cat_loop]. destruct (step_ok k c) as (c1 & E & S1); [lia|apply H; lia|]. rewrite E. cbn [bind].
    destruct (IH (S k) c1) as (c2 & E2 & S2); [lia|intros; apply H; lia|]. exists c2. split; auto.
    replace (k + S m) with (S k + m) by lia. econstructor; eauto. lia.
Qed.

Lemma inv_init : inv 0 (Cats [] [] [] (repeat false n)).
Proof.
  split; cbn; try (intros; contradiction); try lia.
  - apply repeat_length.
  - intros j. rewrite nth_repeat. split; [discriminate|tauto].
  - split; [|split]; cbn; intros; contradiction.
Qed.
Lemma steps_inv k c k2 c2 : steps k c k2 c2 -> inv k c -> inv k2 c2.
Proof. induction 1; auto. intros V. apply IHsteps. eapply step_inv; eauto. Qed.

Lemma all_used c : inv n c -> forallb (fun b : bool => b) (c_used c) = true.
Proof.
  intros V. apply forallb_forall. intros b Hb. apply (In_nth _ _ false) in Hb as (j & Hj & <-).
  apply V. rewrite (v_len _ _ V) in Hj. now apply (v_done _ _ V).
Qed.

Lemma categorize_steps : ~ In ""%string names ->
  exists c, categorize names = Ok c /\ steps 0 (Cats [] [] [] (repeat false n)) n c /\ inv n c.
Proof.
  intros H. unfold categorize. destruct (loop_steps n 0 (Cats [] [] [] (repeat false n))) as (c & E & S).
  - lia.
  - intros j _ X. apply H. now apply (nth_error_In _ j).
  - fold n. rewrite E. cbn [bind]. exists c. cbn in S. pose proof (steps_inv _ _ _ _ S inv_init) as V. now rewrite all_used.
Qed.

(** An empty name is always an error. *)
Lemma step_empty k c : nth_error names k = Some ""%string -> nth k (c_used c) false = false -> cat_step names k c = Err IndexError.
Proof. intros E U. unfold cat_step. rewrite U, (nth_error_nth _ _ _ E). reflexivity. Qed.

Lemma empty_unused k c : inv k c -> nth_error names k = Some ""%string -> nth k (c_used c) false = false.
Proof.
  intros V E. destruct (nth k (c_used c) false) eqn:U; auto. exfalso.
  apply V, grouped_in in U. destruct (v_match _ _ V) as (M1 & M2 & M3).
  destruct U as [(s & H)|[(s & i & j & H & D)|(s & i & j & l & H & D)]].
  - apply (v_lead1 _ _ V) in H. lia.
  - pose proof (v_lead2 _ _ V _ _ _ H). destruct D as [->| ->]; [lia|]. apply M2 in H as [_ H]. rewrite E in H. now destruct s.
  - pose proof (v_lead3 _ _ V _ _ _ _ H). apply M3 in H as (_ & H1 & H2). destruct D as [->|[->| ->]]; [lia| |]; rewrite E in *; now destruct s.
Qed.

Lemma loop_empty m : forall k c, k + m <= n -> inv k c -> (exists j, k <= j < k + m /\ nth_error names j = Some ""%string) ->
  cat_loop names (seq k m) c = Err IndexError.
Proof.
  induction m as [|m IH]; intros k c L V (j & Hj & E); [lia|]. cbn [seq cat_loop].
  destruct (nth_error names k) as [nm|] eqn:En; [|apply nth_error_None in En; unfold n in L; lia].
  destruct (String.eqb_spec nm "") as [->|N].
  - rewrite step_empty by (auto; eapply empty_unused; eauto). reflexivity.
  - destruct (step_ok k c) as (c1 & E1 & S1); [lia|congruence|]. rewrite E1. cbn [bind].
    apply IH; [lia|eapply step_inv; eauto; lia|]. exists j. split; auto.
    assert (j <> k) by (intros ->; congruence). lia.
Qed.
Lemma categorize_empty : In ""%string names -> categorize names = Err IndexError.
Proof.
  intros H. unfold categorize. apply In_nth_error in H as (j & H).
  fold n. rewrite loop_empty; auto using inv_init. exists j. split; auto. split; [lia|]. apply nth_error_Some. unfold n. congruence.
Qed.

(** With the usual order of components no variable is used twice. *)
Hypothesis usual : usual_order names.

Record inv2 (k : nat) (c : cats) : Prop := {
  w_nodup : NoDup (grouped_vars c);
  w_double : forall s i j, i < k -> nth_error names i = Some (s ++ "_R")%string -> nth_error names j = Some (s ++ "_Z")%string -> In (s, i, j) (c_double c);
  w_triple : forall s i j l, i < k -> nth_error names i = Some (s ++ "X")%string -> nth_error names j = Some (s ++ "Y")%string ->
     nth_error names l = Some (s ++ "Z")%string -> In (s, i, j, l) (c_triple c) }.

Lemma same_pos i j s : nth_error names i = Some s -> nth_error names j = Some s -> i = j.
Proof. intros A B. destruct usual as [N _]. rewrite NoDup_nth_error in N. apply N; [apply nth_error_Some; congruence|congruence]. Qed.

Lemma app_end a b : forall c, (a ++ b ++ c)%string = ((a ++ b) ++ c)%string.
Proof. intros. now rewrite TextFacts.str_app_assoc. Qed.

(** A variable after [k] can only have been used as the second or third of a group with an earlier leader. *)
Lemma later_unused_Y k c s i : inv k c -> k <= i -> nth_error names i = Some (s ++ "Y")%string -> In i (grouped_vars c) ->
  exists j l, In (s, j, i, l) (c_triple c).
Proof.
  intros V L E H. apply grouped_in in H. destruct (v_match _ _ V) as (M1 & M2 & M3).
  destruct H as [(t & H)|[(t & a & b & H & D)|(t & a & b & l & H & D)]].
  - apply (v_lead1 _ _ V) in H. lia.
  - pose proof (v_lead2 _ _ V _ _ _ H). destruct D as [->| ->]; [lia|]. apply M2 in H as [_ H]. rewrite E in H. injection H as H.
    change "_Z"%string with ("_" ++ "Z")%string in H. rewrite app_end in H. now apply not_end in H.
  - pose proof (v_lead3 _ _ V _ _ _ _ H). pose proof (M3 _ _ _ _ H) as (_ & H1 & H2). destruct D as [->|[->| ->]]; [lia| |].
    + rewrite E in H1. injection H1 as H1. apply app_split in H1 as [-> _]; auto. eauto.
    + rewrite E in H2. injection H2 as H2. now apply not_end in H2.
Qed.
Lemma later_unused_Z k c s i : inv k c -> k <= i -> nth_error names i = Some (s ++ "Z")%string -> In i (grouped_vars c) ->
  (exists j l, In (s, j, l, i) (c_triple c)) \/ (exists s' j, In (s', j, i) (c_double c) /\ s = (s' ++ "_")%string).
Proof.
  intros V L E H. apply grouped_in in H. destruct (v_match _ _ V) as (M1 & M2 & M3).
  destruct H as [(t & H)|[(t & a & b & H & D)|(t & a & b & l & H & D)]].
  - apply (v_lead1 _ _ V) in H. lia.
  - pose proof (v_lead2 _ _ V _ _ _ H). destruct D as [->| ->]; [lia|]. pose proof (M2 _ _ _ H) as [_ H1]. rewrite E in H1. injection H1 as H1.
    change "_Z"%string with ("_" ++ "Z")%string in H1. rewrite app_end in H1. apply app_split in H1 as [-> _]; auto. right. eauto.
  - pose proof (v_lead3 _ _ V _ _ _ _ H). pose proof (M3 _ _ _ _ H) as (_ & H1 & H2). destruct D as [->|[->| ->]]; [lia| |].
    + rewrite E in H1. injection H1 as H1. now apply not_end in H1.
    + rewrite E in H2. injection H2 as H2. apply app_split in H2 as [-> _]; auto. left. eauto.
Qed.
Lemma leader_unused k c : inv k c -> (exists s, nth_error names k = Some (s ++ "X")%string \/ nth_error names k = Some (s ++ "_R")%string) ->
  ~ In k (grouped_vars c).
Proof.
  intros V (s & E) H. apply grouped_in in H. destruct (v_match _ _ V) as (M1 & M2 & M3).
  assert (K : forall t ch, (ch = "Y" \/ ch = "Z")%string -> nth_error names k <> Some (t ++ ch)%string).
  { intros t ch C X. destruct E as [E|E]; rewrite X in E; injection E as E.
    - revert E. apply not_end; destruct C; subst; auto; discriminate.
    - change "_R"%string with ("_" ++ "R")%string in E. rewrite app_end in E. revert E. apply not_end; destruct C; subst; auto; discriminate. }
  destruct H as [(t & H)|[(t & a & b & H & D)|(t & a & b & l & H & D)]].
  - apply (v_lead1 _ _ V) in H. lia.
  - pose proof (v_lead2 _ _ V _ _ _ H). destruct D as [->| ->]; [lia|]. apply M2 in H as [_ H].
    change "_Z"%string with ("_" ++ "Z")%string in H. rewrite app_end in H. eapply K; eauto.
  - pose proof (v_lead3 _ _ V _ _ _ _ H). pose proof (M3 _ _ _ _ H) as (_ & H1 & H2). destruct D as [->|[->| ->]]; [lia| |].
    + exact (K t "Y"%string (or_introl eq_refl) H1).
    + exact (K t "Z"%string (or_intror eq_refl) H2).
Qed.

Lemma nodup_iff_perm (l l' : list nat) : Permutation.Permutation l l' -> NoDup l -> NoDup l'.
Proof. apply Permutation.Permutation_NoDup. Qed.

Lemma truthy_none s i : truthy (index_of s names) = None -> nth_error names i = Some s -> i = 0.
Proof.
  intros T E. rewrite (index_of_nodup _ _ i) in T by (auto; apply usual). destruct i; auto. discriminate.
Qed.

Lemma step_inv2 k c c' : k < n -> inv k c -> inv2 k c -> stepped k c c' -> inv2 (S k) c'.
Proof.
  intros L V [Wn Wd Wt] S. destruct usual as (N & O1 & O2 & O3).
  assert (NU : nth k (c_used c) false = false -> ~ In k (grouped_vars c)).
  { intros U H. apply V in H. congruence. }
  destruct S as [U|name U En Hx Hr|s iz U En Ez|s iy iz U En Ey Ez].
  - apply V in U. split; auto.
    + intros s i j Hi A B. destruct (Nat.eq_dec i k) as [->|]; [|apply Wd; auto; lia].
      exfalso. eapply leader_unused; eauto.
    + intros s i j l Hi A B C. destruct (Nat.eq_dec i k) as [->|]; [|apply Wt; auto; lia].
      exfalso. eapply leader_unused; eauto.
  - split; cbn [add_single c_double c_triple].
    + unfold grouped_vars in *. cbn [add_single c_single c_double c_triple]. rewrite map_app. cbn [map snd app].
      rewrite <- app_assoc. cbn [app]. eapply Permutation.Permutation_NoDup; [apply Permutation.Permutation_middle|].
      constructor; auto.
    + intros s i j Hi A B. destruct (Nat.eq_dec i k) as [->|]; [|apply Wd; auto; lia].
      exfalso. rewrite En in A. injection A as A. specialize (Hr _ A). apply (truthy_none _ j) in Hr; auto. subst.
      specialize (O2 s k 0 ltac:(congruence) B). lia.
    + intros s i j l Hi A B C. destruct (Nat.eq_dec i k) as [->|]; [|apply Wt; auto; lia].
      exfalso. rewrite En in A. injection A as A. destruct (O1 s k j l ltac:(congruence) B C).
      destruct (Hx _ A) as [X|X]; [apply (truthy_none _ j) in X|apply (truthy_none _ l) in X]; auto; lia.
  - apply truthy_some in Ez as [Ez _]. apply index_of_some in Ez. pose proof (O2 _ _ _ En Ez) as Lk.
    assert (Nz : ~ In iz (grouped_vars c)).
    { intros H. assert (Ez' := Ez). change "_Z"%string with ("_" ++ "Z")%string in Ez'. rewrite app_end in Ez'.
      destruct (later_unused_Z k c _ iz V ltac:(lia) Ez' H) as [(j & l & G)|(s' & j & G & E)].
      - apply (v_match _ _ V) in G as (G1 & G2 & _). apply (O3 s).
        + now apply (nth_error_In _ k).
        + apply (nth_error_In _ j). rewrite G1, <- app_end. reflexivity.
        + apply (nth_error_In _ l). rewrite G2, <- app_end. reflexivity.
      - apply append_cancel_r in E. subst s'. pose proof (v_lead2 _ _ V _ _ _ G). apply (v_match _ _ V) in G as (G1 & _).
        pose proof (same_pos _ _ _ G1 En). lia. }
    split; cbn [c_double c_triple]; auto.
    + unfold grouped_vars in *. cbn [c_single c_double c_triple]. rewrite map_app, concat_app. cbn [map concat app].
      apply insert_two; auto. lia.
    + intros s' i j Hi A B. apply in_app_iff. destruct (Nat.eq_dec i k) as [->|]; [|left; apply Wd; auto; lia].
      right. left. rewrite En in A. injection A as A. apply append_cancel_r in A. subst s'. f_equal. apply (same_pos _ _ _ Ez B).
    + intros s' i j l Hi A B C. destruct (Nat.eq_dec i k) as [->|]; [|apply Wt; auto; lia].
      exfalso. rewrite En in A. injection A as A. symmetry in A. now apply x_not_r in A.
  - apply truthy_some in Ez as [Ez _], Ey as [Ey _]. apply index_of_some in Ez, Ey. destruct (O1 _ _ _ _ En Ey Ez) as [Lk Lk'].
    assert (Ny : ~ In iy (grouped_vars c)).
    { intros H. destruct (later_unused_Y k c _ iy V ltac:(lia) Ey H) as (j & l & G).
      pose proof (v_lead3 _ _ V _ _ _ _ G). apply (v_match _ _ V) in G as (G1 & _). pose proof (same_pos _ _ _ G1 En). lia. }
    assert (Nz : ~ In iz (grouped_vars c)).
    { intros H. destruct (later_unused_Z k c _ iz V ltac:(lia) Ez H) as [(j & l & G)|(s' & j & G & E)].
      - pose proof (v_lead3 _ _ V _ _ _ _ G). apply (v_match _ _ V) in G as (G1 & _). pose proof (same_pos _ _ _ G1 En). lia.
      - subst s. apply (v_match _ _ V) in G as (G1 & _). rewrite <- app_end in En, Ey. apply (O3 s').
        + now apply (nth_error_In _ j).
        + now apply (nth_error_In _ k).
        + now apply (nth_error_In _ iy). }
    assert (iy <> iz). { intros ->. rewrite Ey in Ez. injection Ez as Ez. now apply not_end in Ez. }
    split; cbn [c_double c_triple]; auto.
    + unfold grouped_vars in *. cbn [c_single c_double c_triple]. rewrite map_app, concat_app. cbn [map concat app].
      rewrite !app_assoc. rewrite app_assoc in Wn. rewrite app_assoc in Ny, Nz, NU. apply insert_three; auto; lia.
    + intros s' i j Hi A B. destruct (Nat.eq_dec i k) as [->|]; [|apply Wd; auto; lia].
      exfalso. rewrite En in A. injection A as A. now apply x_not_r in A.
    + intros s' i j l Hi A B C. apply in_app_iff. destruct (Nat.eq_dec i k) as [->|]; [|left; apply Wt; auto; lia].
      right. left. rewrite En in A. injection A as A. apply append_cancel_r in A. subst s'.
      rewrite (same_pos _ _ _ Ey B), (same_pos _ _ _ Ez C). reflexivity.
Qed.

Lemma steps_inv2 k c k2 c2 : steps k c k2 c2 -> inv k c -> inv2 k c -> inv2 k2 c2.
Proof. induction 1; auto. intros V W. apply IHsteps; [eapply step_inv; eauto|eapply step_inv2; eauto]. Qed.
Lemma inv2_init : inv2 0 (Cats [] [] [] (repeat false n)).
Proof. split; cbn; try (intros; lia). constructor. Qed.
End Loop.

Theorem categorize_covers names : ~ In ""%string names ->
  exists c, categorize names = Ok c /\ groups_match names c /\
    (forall j, In j (grouped_vars c) <-> j < length names).
Proof.
  intros H. destruct (categorize_steps names H) as (c & E & S & V). exists c. split; [exact E|]. split; [apply V|].
  intros j. split; [|apply (v_done _ _ _ V)]. intros Hj. apply V in Hj. destruct (Nat.lt_ge_cases j (length names)); auto.
  rewrite nth_overflow in Hj by (rewrite (v_len _ _ _ V); auto). discriminate.
Qed.

Theorem categorize_once names : usual_order names -> ~ In ""%string names ->
  exists c, categorize names = Ok c /\ Permutation.Permutation (grouped_vars c) (seq 0 (length names)) /\
    (forall s i j, In (s, i, j) (c_double c) <->
       nth_error names i = Some (s ++ "_R")%string /\ nth_error names j = Some (s ++ "_Z")%string) /\
    (forall s i j k, In (s, i, j, k) (c_triple c) <->
       nth_error names i = Some (s ++ "X")%string /\ nth_error names j = Some (s ++ "Y")%string /\
       nth_error names k = Some (s ++ "Z")%string).
Proof.
  intros U H. destruct (categorize_steps names H) as (c & E & S & V).
  pose proof (steps_inv2 names U _ _ _ _ S (inv_init names) (inv2_init names)) as W.
  destruct (categorize_covers names H) as (c' & E' & M & C). rewrite E in E'. injection E' as <-.
  exists c. split; [exact E|]. split; [|split].
  - apply Permutation.NoDup_Permutation; [apply W|apply seq_NoDup|]. intros j. rewrite C, in_seq. lia.
  - intros s i j. split; [apply M|]. intros [A B]. apply W; auto. apply nth_error_Some. congruence.
  - intros s i j k. split; [apply M|]. intros (A & B & D). apply W; auto. apply nth_error_Some. congruence.
Qed.
