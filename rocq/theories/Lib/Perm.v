(** Node permutations given by constant index tables. *)
From Verif.Lib Require Import Base Facts Facts2.

(** [q] undoes [p] on rows of length [n]. *)
Definition inverse_perms (n : nat) (p q : list nat) : bool :=
  forallb (fun i => Nat.ltb i n) p && Nat.eqb (length p) n &&
  forallb (fun i => Nat.ltb i n) q && Nat.eqb (length q) n &&
  forallb (fun ij => Nat.eqb (nth (snd ij) p n) (fst ij)) (combine (seq 0 n) q).

Lemma permute_total {A} (p : list nat) (row : list A) :
  forallb (fun i => Nat.ltb i (length row)) p = true -> exists r, permute p row = Some r /\ length r = length p.
Proof.
  unfold permute. induction p as [|i p IH]; cbn; intros H; [now exists []|].
  apply andb_true_iff in H. destruct H as [Hi Hp]. apply Nat.ltb_lt in Hi.
  destruct (nth_error row i) as [x|] eqn:E; [|apply nth_error_None in E; lia].
  destruct (IH Hp) as (r & Hr & Hl). rewrite Hr. exists (x :: r). cbn. auto.
Qed.

Lemma permute_nth {A} (p : list nat) (row r : list A) k i :
  permute p row = Some r -> nth_error p k = Some i -> nth_error r k = nth_error row i.
Proof.
  unfold permute. revert r k; induction p as [|j p IH]; intros r k; cbn; [intros _ H; destruct k; discriminate|].
  destruct (nth_error row j) as [x|] eqn:E; [|discriminate].
  destruct (mapO _ p) as [ys|] eqn:E2; [|discriminate]. intros H Hk. injection H as <-.
  destruct k as [|k]; cbn in *; [injection Hk as <-; congruence|]. eauto.
Qed.

Lemma permute_intro {A} (q : list nat) (row r : list A) : length q = length r ->
  (forall k i, nth_error q k = Some i -> nth_error row i = nth_error r k) -> permute q row = Some r.
Proof.
  unfold permute. revert r; induction q as [|j q IH]; intros [|x r] Hl H; try discriminate; [reflexivity|].
  cbn. rewrite (H 0 j eq_refl). cbn. rewrite (IH r); auto.
  intros k i Hk. apply (H (S k) i Hk).
Qed.

Lemma permute_inverse {A} n p q (row : list A) : inverse_perms n p q = true -> length row = n ->
  exists r, permute p row = Some r /\ length r = n /\ permute q r = Some row.
Proof.
  unfold inverse_perms. rewrite !andb_true_iff. intros [[[[Hp Hlp] Hq] Hlq] Hc] Hn.
  apply Nat.eqb_eq in Hlp, Hlq. rewrite <- Hn in *. clear Hn n.
  destruct (permute_total p row Hp) as (r & Hr & Hl). exists r. split; [auto|]. split; [lia|].
  apply permute_intro; [lia|]. intros k i Hk.
  assert (Hlt := nth_error_lt _ _ _ Hk).
  rewrite forallb_forall in Hc. specialize (Hc (k, i)). cbn [fst snd] in Hc.
  assert (Hin : In (k, i) (combine (seq 0 (length row)) q)).
  { apply (nth_error_In _ k). rewrite nth_error_combine, Hk.
    rewrite (nth_error_nth' _ 0) by (rewrite seq_length; lia). rewrite seq_nth by lia. split; reflexivity. }
  specialize (Hc Hin). apply Nat.eqb_eq in Hc.
  rewrite forallb_forall in Hq. pose proof (Hq i (nth_error_In _ _ Hk)) as Hi. apply Nat.ltb_lt in Hi.
  assert (Hpi : nth_error p i = Some k).
  { rewrite <- Hc at 1. apply nth_error_nth'. lia. }
  now rewrite (permute_nth p row r i k Hr Hpi).
Qed.

(** Two tables of permutations, indexed by type: every entry of the first is undone by the
    entry of the second, and both have entries for the same types. *)
Definition inverse_tables (tab1 tab2 : dict (list nat)) : bool :=
  forallb (fun kv => match dget (fst kv) tab2 with
                     | Some q => inverse_perms (length (snd kv)) (snd kv) q
                     | None => false
                     end) tab1 &&
  forallb (fun kv => dmem (fst kv) tab1) tab2.

Lemma inverse_tables_spec tab1 tab2 t : inverse_tables tab1 tab2 = true ->
  match dget t tab1 with
  | None => dget t tab2 = None
  | Some p => exists q, dget t tab2 = Some q /\ inverse_perms (length p) p q = true
  end.
Proof.
  unfold inverse_tables. rewrite andb_true_iff, !forallb_forall. intros [H1 H2].
  destruct (dget t tab1) as [p|] eqn:E.
  - apply dget_In in E. specialize (H1 _ E). cbn [fst snd] in H1. destruct (dget t tab2); [eauto|discriminate].
  - destruct (dget t tab2) as [q|] eqn:E2; auto. apply dget_In in E2. specialize (H2 _ E2). cbn in H2.
    unfold dmem in H2. now rewrite E in H2.
Qed.
