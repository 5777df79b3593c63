(** Cutting decoded cells along runs of equal keys gives the regrouped cells. *)
From Verif.Lib Require Import Base Facts Runs.
From Verif.Model Require Import Core.
From Verif.Spec Require Import Core Blocks.
From Verif.Proofs Require Import Blocks.

Section RB.
Context {A : Type} (name : A -> string) (w : A -> nat).

Definition blocks_of (rs : list (A * nat)) (rows : list cell) : list block :=
  map (fun p => Block (name (fst (fst p))) (snd p)) (combine rs (split_lens (map snd rs) rows)).

Lemma blocks_of_cons a n rs rows :
  blocks_of ((a, n) :: rs) rows = Block (name a) (firstn n rows) :: blocks_of rs (skipn n rows).
Proof. reflexivity. Qed.

Lemma combine_app_eq {B C} (l1 l2 : list B) (r1 r2 : list C) : length l1 = length r1 ->
  combine (l1 ++ l2) (r1 ++ r2) = combine l1 r1 ++ combine l2 r2.
Proof.
  revert r1; induction l1 as [|x l1 IH]; intros [|y r1] H; cbn in *; try discriminate; auto.
  now rewrite IH by lia.
Qed.

Lemma combine_repeat {B C} (x : B) (l : list C) n : length l = n ->
  combine (repeat x n) l = map (pair x) l.
Proof. revert n; induction l as [|y l IH]; intros [|n] H; cbn in *; try discriminate; auto. now rewrite IH by lia. Qed.

Lemma map_repeat' {B C} (f : B -> C) x n : map f (repeat x n) = repeat (f x) n.
Proof. induction n; cbn; auto. now rewrite IHn. Qed.

Lemma blocks_of_cells rs rows : length rows = sum_nat (map snd rs) ->
  all_cells (blocks_of rs rows) = combine (map name (expand rs)) rows.
Proof.
  revert rows; induction rs as [|[a n] rs IH]; intros rows Hl.
  - reflexivity.
  - rewrite blocks_of_cons, all_cells_cons. cbn [btype bdata].
    cbn [map snd sum_nat] in Hl. rewrite IH by (rewrite skipn_length; lia).
    unfold expand. cbn [flat_map fst snd]. rewrite map_app, map_repeat'.
    rewrite <- (firstn_skipn n rows) at 3.
    rewrite combine_app_eq by (rewrite repeat_length, firstn_length; lia).
    f_equal. rewrite combine_repeat; auto. rewrite firstn_length. lia.
Qed.

Lemma blocks_of_grouped rs rows :
  length rows = sum_nat (map snd rs) ->
  (forall a n, In (a, n) rs -> 0 < n) ->
  alternating rs ->
  (forall a b, In a (map fst rs) -> In b (map fst rs) -> name a = name b -> w a = w b -> a = b) ->
  Forall2 (fun a (r : cell) => length r = w a) (expand rs) rows ->
  grouped (blocks_of rs rows).
Proof.
  revert rows; induction rs as [|[a n] rs IH]; intros rows Hl Hpos Halt Hinj Hw; [exact I|].
  assert (Hn : 0 < n) by (eapply Hpos; left; reflexivity).
  rewrite blocks_of_cons. cbn [map snd sum_nat] in Hl.
  unfold expand in Hw. cbn [flat_map fst snd] in Hw.
  apply Forall2_app_inv_l in Hw. destruct Hw as (r1 & r2 & Hw1 & Hw2 & ->).
  assert (Hr1 : length r1 = n) by (apply Forall2_length in Hw1; rewrite repeat_length in Hw1; lia).
  assert (E1 : @firstn cell n (@app cell r1 r2) = r1).
  { rewrite firstn_app, Hr1, Nat.sub_diag, <- Hr1, firstn_all. cbn. apply app_nil_r. }
  assert (E2 : @skipn cell n (@app cell r1 r2) = r2).
  { rewrite skipn_app, Hr1, Nat.sub_diag, <- Hr1, skipn_all. reflexivity. }
  rewrite E1, E2. rewrite app_length in Hl.
  assert (Hall : Forall (fun r => length r = w a) r1).
  { clear -Hw1. remember (repeat a n) as ra. revert n Heqra. induction Hw1 as [|x r l l' Hx Hw IH]; intros n E; [constructor|].
    destruct n; [discriminate|]. cbn in E. injection E as -> ->. constructor; eauto. }
  destruct r1 as [|c cs]; [cbn in Hr1; lia|].
  split.
  - exists c, cs. cbn [bdata btype]. split; [reflexivity|].
    inversion Hall as [|? ? Hc Hcs]; subst. split.
    + rewrite Hc. exact Hcs.
    + destruct rs as [|[b m] rs].
      * cbn. discriminate.
      * assert (Hm : 0 < m) by (eapply Hpos; right; left; reflexivity).
        rewrite blocks_of_cons. cbn [expand flat_map fst snd] in Hw2.
        destruct m; [lia|]. cbn [repeat app] in Hw2. inversion Hw2 as [|? r ? ? Hr ?]; subst.
        cbn [firstn headkey]. intros E. injection E as E1' E2'.
        destruct Halt as [Hne _]. apply Hne. symmetry. apply Hinj; cbn; auto. congruence.
  - apply IH; auto.
    + cbn [length] in *. lia.
    + intros b m Hin. eapply Hpos. right. eauto.
    + exact (proj2 Halt).
    + intros b b' Hb Hb'. apply Hinj; right; auto.
Qed.
End RB.

(** A run is constant on its span. *)
Section Span.
Context {A : Type} (eqb : A -> A -> bool).
Hypothesis eqb_spec : forall x y, reflect (x = y) (eqb x y).

Lemma spans_In (rs : list (A * nat)) s e s0 :
  In (s, e) (spans s0 rs) -> exists pre a n post, rs = pre ++ (a, n) :: post /\
    s = s0 + sum_nat (map snd pre) /\ e = s + n.
Proof.
  revert s0; induction rs as [|[a n] rs IH]; intros s0; cbn; [tauto|].
  intros [H|H].
  - injection H as <- <-. exists [], a, n, rs. cbn. repeat split; lia.
  - apply IH in H. destruct H as (pre & a' & n' & post & -> & -> & ->).
    exists ((a, n) :: pre), a', n', post. cbn. repeat split; lia.
Qed.

Lemma expand_app (r1 r2 : list (A * nat)) : expand (r1 ++ r2) = expand r1 ++ expand r2.
Proof. apply flat_map_app. Qed.

Lemma expand_length (r : list (A * nat)) : length (expand r) = sum_nat (map snd r).
Proof. induction r as [|[a n] r IH]; cbn; auto. rewrite app_length, repeat_length. unfold expand in IH. lia. Qed.

Lemma span_const l s e : In (s, e) (spans 0 (runs eqb l)) ->
  s < e /\ e <= length l /\ exists a, forall i, s <= i < e -> nth_error l i = Some a.
Proof.
  intros H. apply spans_In in H. destruct H as (pre & a & n & post & E & -> & ->).
  assert (Hn : 0 < n). { apply (runs_pos eqb l a n). rewrite E. apply in_app_iff. right. now left. }
  pose proof (expand_runs eqb eqb_spec l) as El. rewrite E, expand_app in El.
  unfold expand at 2 in El. cbn [flat_map fst snd] in El.
  split; [lia|]. split.
  - rewrite <- El, !app_length, repeat_length, expand_length. lia.
  - exists a. intros i Hi. rewrite <- El.
    rewrite nth_error_app2 by (rewrite expand_length; lia). rewrite expand_length.
    rewrite nth_error_app1 by (rewrite repeat_length; lia).
    rewrite nth_error_repeat; auto. lia.
Qed.

(** Blocks cut along the bounds. *)
Lemma bounds_blocks (name : A -> string) (l : list A) (rows : list cell) (f : nat * nat -> block) :
  length rows = length l ->
  (forall s e a, In (s, e) (spans 0 (runs eqb l)) -> nth_error l s = Some a ->
     f (s, e) = Block (name a) (slice s e rows)) ->
  map f (spans 0 (runs eqb l)) = blocks_of name (runs eqb l) rows.
Proof.
  intros Hl Hf.
  assert (G : forall rs s0, (forall p, In p (spans s0 rs) -> In p (spans 0 (runs eqb l))) ->
             (forall pre a n post, rs = pre ++ (a, n) :: post ->
                 nth_error l (s0 + sum_nat (map snd pre)) = Some a) ->
             map f (spans s0 rs) = blocks_of name rs (skipn s0 rows)).
  { induction rs as [|[a n] rs IH]; intros s0 Hin Hnth; [reflexivity|].
    rewrite blocks_of_cons. cbn [spans map]. f_equal.
    - rewrite (Hf s0 (s0 + n) a).
      + f_equal. unfold slice. f_equal. lia.
      + apply Hin. now left.
      + rewrite <- (Hnth [] a n rs eq_refl). f_equal. cbn. lia.
    - rewrite IH.
      + f_equal. clear. revert rows. induction s0 as [|s0 IH]; intros rows; cbn; auto.
        destruct rows; cbn; auto. now rewrite skipn_nil.
      + intros p Hp. apply Hin. now right.
      + intros pre b m post E. rewrite <- (Hnth ((a, n) :: pre) b m post); [|now rewrite E].
        f_equal. cbn. lia. }
  rewrite G.
  - reflexivity.
  - auto.
  - intros pre a n post E. pose proof (expand_runs eqb eqb_spec l) as El. rewrite E, expand_app in El.
    assert (Hn : 0 < n). { apply (runs_pos eqb l a n). rewrite E. apply in_app_iff. right. now left. }
    rewrite <- El. rewrite nth_error_app2 by (rewrite expand_length; lia). rewrite expand_length.
    cbn [expand flat_map fst snd]. destruct n; [lia|].
    replace (0 + sum_nat (map snd pre) - sum_nat (map snd pre)) with 0 by lia. reflexivity.
Qed.

Lemma Forall2_expand_runs {B} (P : A -> B -> Prop) l (rows : list B) :
  Forall2 P l rows -> Forall2 P (expand (runs eqb l)) rows.
Proof. now rewrite expand_runs. Qed.
End Span.

Lemma blocks_of_data {A V} (name : A -> string) (rs : list (A * nat)) rows (d : list V) :
  length rows = sum_nat (map snd rs) -> length d = length rows ->
  data_for (blocks_of name rs rows) d = split_lens (map snd rs) d.
Proof.
  intros Hl Hd. unfold data_for. f_equal. clear Hd. revert rows Hl.
  induction rs as [|[a n] rs IH]; intros rows Hl; [reflexivity|].
  rewrite blocks_of_cons. cbn [map snd sum_nat] in *. f_equal.
  - unfold blen. cbn [bdata]. rewrite firstn_length. lia.
  - apply IH. rewrite skipn_length. lia.
Qed.
