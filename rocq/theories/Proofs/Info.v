(** Proofs about the check of [meshio info]. *)
From Verif.Lib Require Import Base Facts Facts2.
From Verif.Model Require Import Core Info.
From Verif.Spec Require Import Info.
From Coq Require Import Lia.

Lemma refers_concat bs i : refers bs i <-> exists b, In b bs /\ In i (concat (bdata b)).
Proof.
  split.
  - intros (b & r & Hb & Hr & Hi). exists b. split; auto. apply in_concat. eauto.
  - intros (b & Hb & Hi). apply in_concat in Hi as (r & Hr & Hi). exists b, r. auto.
Qed.

Lemma consistent_spec n bs :
  info_consistent n bs = true <-> forall i, refers bs i -> (i <= Z.of_nat n)%Z.
Proof.
  unfold info_consistent. rewrite Bool.negb_true_iff. split.
  - intros H i Hi. apply refers_concat in Hi as (b & Hb & Hi).
    destruct (Z.leb_spec i (Z.of_nat n)) as [|L]; auto. exfalso.
    enough (existsb (fun b => existsb (fun i => (Z.of_nat n <? i)%Z) (concat (bdata b))) bs = true) by congruence.
    apply existsb_exists. exists b. split; auto. apply existsb_exists. exists i. split; auto. now apply Z.ltb_lt.
  - intros H. apply Bool.not_true_is_false. intros E. apply existsb_exists in E as (b & Hb & E).
    apply existsb_exists in E as (i & Hi & E). apply Z.ltb_lt in E.
    enough (i <= Z.of_nat n)%Z by lia. apply H, refers_concat. eauto.
Qed.

(** The position that an index stands for. *)
Definition pos_of (n : nat) (i : Z) : nat := Z.to_nat (if (i <? 0)%Z then i + Z.of_nat n else i).

Lemma np_index_ok n i : (- Z.of_nat n <= i < Z.of_nat n)%Z -> np_index n i = Ok (pos_of n i).
Proof.
  intros H. unfold np_index, pos_of. destruct (Z.ltb_spec i 0).
  - destruct (Z.leb_spec 0 i); [lia|]. cbn. destruct (Z.leb_spec (- Z.of_nat n) i); [|lia]. reflexivity.
  - destruct (Z.leb_spec 0 i); [|lia]. cbn. destruct (Z.ltb_spec i (Z.of_nat n)); [|lia]. reflexivity.
Qed.
Lemma np_index_err n i : ~ (- Z.of_nat n <= i < Z.of_nat n)%Z -> np_index n i = Err IndexError.
Proof.
  intros H. unfold np_index.
  destruct (Z.leb_spec 0 i), (Z.ltb_spec i (Z.of_nat n)), (Z.leb_spec (- Z.of_nat n) i), (Z.ltb_spec i 0); cbn; auto; lia.
Qed.
Lemma np_index_all n l : (forall i, In i l -> (- Z.of_nat n <= i < Z.of_nat n)%Z) -> mapM (np_index n) l = Ok (map (pos_of n) l).
Proof.
  induction l as [|i l IH]; intros H; [reflexivity|]. cbn [mapM map]. rewrite np_index_ok by (apply H; now left). cbn [bind].
  rewrite IH by (intros; apply H; now right). reflexivity.
Qed.
Lemma np_index_some n l i : In i l -> ~ (- Z.of_nat n <= i < Z.of_nat n)%Z -> mapM (np_index n) l = Err IndexError.
Proof.
  induction l as [|j l IH]; intros Hi Hn; [destruct Hi|]. cbn [mapM].
  destruct (Z_le_dec (- Z.of_nat n) j) as [A|A]; [destruct (Z_lt_dec j (Z.of_nat n)) as [B|B]|].
  - rewrite np_index_ok by lia. cbn [bind]. destruct Hi as [->|Hi]; [lia|]. now rewrite IH.
  - rewrite np_index_err by lia. reflexivity.
  - rewrite np_index_err by lia. reflexivity.
Qed.

Lemma mark_blocks_ok n bs : forall used, length used = n ->
  (forall i, refers bs i -> (- Z.of_nat n <= i < Z.of_nat n)%Z) ->
  mark_blocks used bs = Ok (scatter (concat (map (fun b => map (pos_of n) (concat (bdata b))) bs)) true used).
Proof.
  induction bs as [|b bs IH]; intros used Hl H; [reflexivity|]. cbn [mark_blocks map concat]. unfold mark_used.
  rewrite Hl, np_index_all.
  2:{ intros i Hi. apply H, refers_concat. exists b. split; [now left|exact Hi]. }
  cbn [bind]. rewrite IH.
  - unfold scatter. now rewrite fold_left_app.
  - etransitivity; [|exact Hl]; apply (scatter_length (map (pos_of n) (concat (bdata b))) true used).
  - intros i (b' & r & Hb & Hr). apply H. exists b', r. cbn. tauto.
Qed.
Lemma mark_blocks_err n bs : forall used i, length used = n -> refers bs i ->
  ~ (- Z.of_nat n <= i < Z.of_nat n)%Z -> mark_blocks used bs = Err IndexError.
Proof.
  induction bs as [|b bs IH]; intros used i Hl Hr Hn; [destruct Hr as (b & ? & [] & _)|].
  cbn [mark_blocks]. unfold mark_used. rewrite Hl.
  destruct (mapM (np_index n) (concat (bdata b))) as [ix|e] eqn:E.
  - cbn [bind]. apply (IH _ i); auto.
    + etransitivity; [|exact Hl]; apply (scatter_length ix true used).
    + destruct Hr as (b' & r & [<-|Hb] & Hr & Hi); [|exists b', r; auto].
      rewrite (np_index_some n _ i) in E; [discriminate| |auto]. apply in_concat. eauto.
  - cbn [bind]. destruct (existsb (fun i => negb ((- Z.of_nat n <=? i)%Z && (i <? Z.of_nat n)%Z)) (concat (bdata b))) eqn:X.
    + apply existsb_exists in X as (j & Hj & X). rewrite (np_index_some n _ j) in E; [congruence|auto|].
      intros [A B]. apply Z.leb_le in A. apply Z.ltb_lt in B. now rewrite A, B in X.
    + rewrite np_index_all in E; [discriminate|]. intros j Hj.
      apply Bool.not_true_iff_false in X. destruct (Z_le_dec (- Z.of_nat n) j) as [A|A]; [destruct (Z_lt_dec j (Z.of_nat n)) as [B|B]; auto|];
        (exfalso; apply X, existsb_exists; exists j; split; auto; apply Bool.negb_true_iff, Bool.andb_false_iff).
      * right. apply Z.ltb_ge. lia.
      * left. apply Z.leb_gt. lia.
Qed.

Lemma unused_spec idx n : (forall j, In j idx -> j < n) ->
  existsb negb (scatter idx true (repeat false n)) = true <-> exists j, j < n /\ ~ In j idx.
Proof.
  intros Hi. rewrite existsb_exists. split.
  - intros (u & Hu & E). destruct u; [discriminate|]. apply In_nth_error in Hu as (j & Hj).
    assert (L : j < n).
    { assert (j < length (scatter idx true (repeat false n))) by (apply nth_error_Some; congruence).
      now rewrite scatter_length, repeat_length in H. }
    exists j. split; auto. intros X. rewrite nth_error_scatter in Hj by now rewrite repeat_length.
    destruct (existsb (Nat.eqb j) idx) eqn:Y; [congruence|].
    enough (existsb (Nat.eqb j) idx = true) by congruence. apply existsb_exists. exists j. split; auto. apply Nat.eqb_refl.
  - intros (j & L & H). exists false. split; auto. apply (nth_error_In _ j).
    rewrite nth_error_scatter by now rewrite repeat_length.
    destruct (existsb (Nat.eqb j) idx) eqn:Y.
    + apply existsb_exists in Y as (k & Hk & Y). apply Nat.eqb_eq in Y. now subst.
    + rewrite (nth_error_nth' _ false) by now rewrite repeat_length. now rewrite nth_repeat.
Qed.

Theorem info_ok n bs : (forall i, refers bs i -> (- Z.of_nat n <= i < Z.of_nat n)%Z) ->
  exists w, info_check n bs = Ok w /\ ~ In Inconsistent w /\
    (In UnusedPoints w <-> exists p, (p < n)%nat /\ forall i, refers bs i -> pos_of n i <> p).
Proof.
  intros H. unfold info_check. assert (C : info_consistent n bs = true).
  { apply consistent_spec. intros i Hi. apply H in Hi. lia. }
  rewrite C, (mark_blocks_ok n) by (auto using repeat_length). cbn [bind].
  set (idx := concat _).
  assert (Hin : forall j, In j idx <-> exists i, refers bs i /\ pos_of n i = j).
  { intros j. unfold idx. rewrite in_concat. split.
    - intros (l & Hl & Hj). apply in_map_iff in Hl as (b & <- & Hb). apply in_map_iff in Hj as (i & <- & Hi).
      exists i. split; auto. apply refers_concat. eauto.
    - intros (i & Hi & <-). apply refers_concat in Hi as (b & Hb & Hi). eexists. split; [apply in_map, Hb|]. now apply in_map. }
  assert (Hb : forall j, In j idx -> j < n).
  { intros j Hj. apply Hin in Hj as (i & Hi & <-). apply H in Hi. unfold pos_of. destruct (Z.ltb_spec i 0); lia. }
  pose proof (unused_spec idx n Hb) as U.
  exists (if existsb negb (scatter idx true (repeat false n)) then [UnusedPoints] else []). split; [reflexivity|].
  destruct (existsb negb _).
  - split; [intros [X|[]]; discriminate|]. split; [intros _|now left].
    destruct U as [U _]. destruct (U eq_refl) as (p & L & Hp). exists p. split; auto. intros i Hi E. apply Hp, Hin. eauto.
  - split; [intros []|]. split; [intros []|]. intros (p & L & Hp). exfalso.
    destruct U as [_ U]. enough (false = true) by discriminate. apply U. exists p. split; auto.
    intros X. apply Hin in X as (i & Hi & E). now apply (Hp i).
Qed.
