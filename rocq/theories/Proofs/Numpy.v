(** Facts about the arrays of Model/Numpy.v *)
From Verif.Lib Require Import Base Facts Facts2.
From Verif.Model Require Import Numpy.
From Verif.Proofs Require Import CoreMisc.

Lemma size_cons n s : size (n :: s) = n * size s.
Proof. reflexivity. Qed.

Section Arrays.
Context {A : Type}.
Implicit Types (l : list A) (m : list (list A)).

Lemma rows_of_length n w l : length (rows_of n w l) = n.
Proof. unfold rows_of. now rewrite map_length, seq_length. Qed.
Lemma rows_of_S n w l : rows_of (S n) w l = firstn w l :: rows_of n w (skipn w l).
Proof.
  unfold rows_of. cbn [seq map]. f_equal.
  - unfold slice. cbn [Nat.mul]. rewrite Nat.add_0_l, Nat.sub_0_r. reflexivity.
  - rewrite <- seq_shift, map_map. apply map_ext. intros i. unfold slice.
    rewrite skipn_skipn. change (S i * w) with (w + i * w). f_equal. lia.
Qed.
Lemma rows_of_concat m w : Forall (fun r => length r = w) m -> rows_of (length m) w (concat m) = m.
Proof.
  induction m as [|r m IH]; intros H; [reflexivity|]. inversion H as [|? ? Hr Hm]; subst. cbn [length concat]. rewrite rows_of_S.
  rewrite firstn_app, firstn_all, Nat.sub_diag, skipn_app, skipn_all, Nat.sub_diag. cbn. rewrite app_nil_r. now rewrite IH.
Qed.
Lemma rows_of_rect n : forall w l, n * w <= length l -> Forall (fun r => length r = w) (rows_of n w l).
Proof.
  induction n as [|n IH]; intros w l H; [constructor|]. rewrite rows_of_S. cbn in H. constructor.
  - rewrite firstn_length. lia.
  - apply IH. rewrite skipn_length. lia.
Qed.
Lemma concat_rows_of n : forall w l, length l = n * w -> concat (rows_of n w l) = l.
Proof.
  induction n as [|n IH]; intros w l H.
  - destruct l; [reflexivity|discriminate].
  - rewrite rows_of_S. cbn [concat]. rewrite IH, firstn_skipn; auto. rewrite skipn_length. cbn in H. lia.
Qed.

Lemma column_nth m w j i : Forall (fun r => length r = w) m -> j < w ->
  nth_error (column j m) i = match nth_error m i with Some r => nth_error r j | None => None end.
Proof.
  intros H Hj. revert i. induction H as [|r m Hr Hm IH]; intros i; [now destruct i|].
  unfold column. cbn [flat_map]. fold (column j m). destruct (nth_error r j) as [x|] eqn:E.
  2: { apply nth_error_None in E. lia. }
  destruct i as [|i]; cbn; auto.
Qed.
Lemma column_length m w j : Forall (fun r => length r = w) m -> j < w -> length (column j m) = length m.
Proof.
  intros H Hj. induction H as [|r m Hr Hm IH]; [reflexivity|].
  unfold column. cbn [flat_map]. fold (column j m). destruct (nth_error r j) as [x|] eqn:E.
  2: { apply nth_error_None in E. lia. }
  cbn. now rewrite IH.
Qed.
Lemma transposed_length w m : length (transposed w m) = w.
Proof. unfold transposed. now rewrite map_length, seq_length. Qed.
Lemma transposed_rect m w : Forall (fun r => length r = w) m -> Forall (fun r => length r = length m) (transposed w m).
Proof.
  intros H. unfold transposed. apply Forall_map. apply Forall_forall. intros j Hj. apply in_seq in Hj. apply (column_length m w); auto. lia.
Qed.
Lemma transposed_nth m w i : i < w -> nth_error (transposed w m) i = Some (column i m).
Proof.
  intros H. unfold transposed. rewrite nth_error_map. rewrite (nth_error_nth' (seq 0 w) 0) by now rewrite seq_length.
  rewrite seq_nth; auto.
Qed.
Lemma transposed_twice m w : Forall (fun r => length r = w) m -> transposed (length m) (transposed w m) = m.
Proof.
  intros H. apply nth_error_ext. intros i. destruct (nth_error m i) as [r|] eqn:E.
  - assert (Hi : i < length m) by (apply nth_error_Some; congruence).
    assert (Hr : length r = w) by (rewrite Forall_forall in H; apply H; eapply nth_error_In; eauto).
    rewrite transposed_nth by auto. f_equal. apply nth_error_ext. intros j.
    destruct (Nat.lt_ge_cases j w) as [Hj|Hj].
    + rewrite (column_nth _ (length m)); auto using transposed_rect. rewrite transposed_nth by auto.
      rewrite (column_nth _ w) by auto. now rewrite E.
    + transitivity (@None A); [|symmetry]; apply nth_error_None; [|lia].
      rewrite (column_length _ (length m)); auto using transposed_rect. rewrite transposed_length. lia.
  - apply nth_error_None in E. apply nth_error_None. rewrite transposed_length. lia.
Qed.

Lemma concat_rect_length m w : Forall (fun r => length r = w) m -> length (concat m) = length m * w.
Proof. intros H. induction H as [|r m Hr Hm IH]; [reflexivity|]. cbn. rewrite app_length, IH, Hr. reflexivity. Qed.

Lemma to_f_length s : forall l, length l = size s -> length (to_f s l) = size s.
Proof.
  induction s as [|n s IH]; intros l H; [exact H|]. cbn [to_f].
  rewrite (concat_rect_length _ n).
  - rewrite transposed_length. cbn [size fold_right]. change (fold_right Nat.mul 1 s) with (size s). lia.
  - assert (T := transposed_rect (map (to_f s) (rows_of n (size s) l)) (size s)). rewrite map_length, rows_of_length in T. apply T. apply Forall_map. eapply Forall_impl; [|apply rows_of_rect; rewrite H; reflexivity].
    intros r Hr. now apply IH.
Qed.
Lemma of_to_f s : forall l, length l = size s -> of_f s (to_f s l) = l.
Proof.
  induction s as [|n s IH]; intros l H; [reflexivity|]. cbn [to_f of_f].
  set (m := map (to_f s) (rows_of n (size s) l)).
  assert (Hm : Forall (fun r => length r = size s) m).
  { apply Forall_map. eapply Forall_impl; [|apply rows_of_rect; rewrite H; reflexivity]. intros r Hr. now apply to_f_length. }
  assert (Hn : length m = n) by (unfold m; now rewrite map_length, rows_of_length).
  assert (E : rows_of (size s) n (concat (transposed (size s) m)) = transposed (size s) m).
  { assert (T := transposed_rect m (size s) Hm). rewrite Hn in T. apply rows_of_concat in T. now rewrite transposed_length in T. }
  rewrite E. rewrite <- Hn at 1. rewrite transposed_twice by auto. unfold m. rewrite map_map.
  transitivity (concat (rows_of n (size s) l)); [|apply concat_rows_of; auto].
  f_equal. rewrite <- (map_id (rows_of n (size s) l)) at 2. apply map_ext_in. intros r Hr.
  apply IH. assert (R := rows_of_rect n (size s) l). rewrite Forall_forall in R. apply R; auto. rewrite H. reflexivity.
Qed.

(** One-dimensional arrays, and dimensions of length 1 *)
Lemma column_single m : Forall (fun r => length r = 1) m -> column 0 m = concat m.
Proof.
  intros H. induction H as [|r m Hr Hm IH]; [reflexivity|]. unfold column. cbn [flat_map]. fold (column 0 m).
  destruct r as [|x [|y r]]; try discriminate. cbn. now rewrite IH.
Qed.
Lemma map_concat_id m : map (fun x : list A => x) m = m.
Proof. apply map_id. Qed.
Lemma to_f_1 n l : length l = n -> to_f [n] l = l.
Proof.
  intros H. cbn [to_f]. change (size []) with 1. unfold transposed. cbn [seq map].
  rewrite map_concat_id. rewrite column_single by (apply rows_of_rect; lia). rewrite concat_rows_of by lia.
  cbn. apply app_nil_r.
Qed.
Lemma of_f_1 n l : length l = n -> of_f [n] l = l.
Proof.
  intros H. cbn [of_f]. change (size []) with 1. rewrite map_concat_id.
  assert (E : rows_of 1 n l = [l]).
  { rewrite rows_of_S. cbn. now rewrite firstn_all2 by lia. }
  rewrite E. transitivity (concat (transposed n (transposed 1 (rows_of n 1 l)))).
  - f_equal. f_equal. unfold transposed. cbn [seq map]. rewrite column_single by (apply rows_of_rect; lia). now rewrite concat_rows_of by lia.
  - replace n with (length (rows_of n 1 l)) at 1 by apply rows_of_length.
    rewrite transposed_twice by (apply rows_of_rect; lia). apply concat_rows_of. lia.
Qed.
Lemma of_f_one s l : length l = size s -> of_f (1 :: s) l = of_f s l.
Proof.
  intros H. cbn [of_f]. unfold transposed. cbn [seq map].
  rewrite column_single by (apply rows_of_rect; lia). rewrite concat_rows_of by lia. cbn. apply app_nil_r.
Qed.
Lemma of_f_1_mid n c l : length l = n * c -> of_f [n; 1; c] l = of_f [n; c] l.
Proof.
  intros H. change (of_f [n; 1; c] l) with (concat (map (of_f [1; c]) (transposed n (rows_of (size [1; c]) n l)))).
  change (of_f [n; c] l) with (concat (map (of_f [c]) (transposed n (rows_of (size [c]) n l)))).
  assert (E : size [1; c] = c) by (unfold size; cbn; lia). assert (E2 : size [c] = c) by (unfold size; cbn; lia). rewrite E, E2.
  f_equal. apply map_ext_in. intros r Hr. apply of_f_one. rewrite E2.
  assert (T := transposed_rect (rows_of c n l) n). rewrite rows_of_length in T.
  assert (T2 : Forall (fun r => length r = c) (transposed n (rows_of c n l))) by (apply T, rows_of_rect; lia).
  rewrite Forall_forall in T2. now apply T2.
Qed.

(** Reshaping what was flattened *)
Definition nd_ok (a : nda A) : Prop := length (nd_flat a) = size (nd_shape a).
Lemma flatten_length (a : nda A) : nd_ok a -> length (nd_flat (flatten_f a)) = size (nd_shape a).
Proof. intros H. cbn. now apply to_f_length. Qed.
Lemma reshape_flatten (a : nda A) : nd_ok a -> reshape_f (nd_shape a) (flatten_f a) = Ok a.
Proof.
  intros H. unfold reshape_f. rewrite flatten_length by auto. rewrite Nat.eqb_refl.
  assert (E : to_f (nd_shape (flatten_f a)) (nd_flat (flatten_f a)) = to_f (nd_shape a) (nd_flat a)).
  { cbn [flatten_f nd_shape nd_flat]. apply to_f_1. rewrite to_f_length; auto. }
  rewrite E, of_to_f by exact H. now destruct a.
Qed.
Lemma size_app s1 s2 : size (s1 ++ s2) = size s1 * size s2.
Proof. induction s1 as [|n s1 IH]; cbn [app]; [cbn; lia|]. rewrite !size_cons, IH. lia. Qed.
Lemma reshape_rest_flatten (a : nda A) s c : nd_ok a -> nd_shape a = s ++ [c] -> size s <> 0 -> reshape_f_rest s (flatten_f a) = Ok a.
Proof.
  intros H E Hs. unfold reshape_f_rest. destruct (Nat.eqb_spec (size s) 0) as [|_]; [contradiction|].
  rewrite flatten_length by auto. rewrite E, size_app. change (size [c]) with (c * 1). rewrite Nat.mul_1_r.
  rewrite (Nat.mul_comm (size s) c), Nat.div_mul by auto. rewrite <- E. now apply reshape_flatten.
Qed.

Lemma to_of_rows m w : Forall (fun r => length r = w) m -> to_rows (of_rows m) = Ok m.
Proof.
  intros H. unfold to_rows, of_rows. cbn [nd_shape nd_flat]. f_equal. apply rows_of_concat.
  destruct m as [|r m]; [constructor|]. inversion H; subst. exact H.
Qed.
Lemma of_rows_ok m w : Forall (fun r => length r = w) m -> nd_ok (of_rows m).
Proof.
  intros H. unfold nd_ok, of_rows. cbn [nd_shape nd_flat]. destruct m as [|r m]; [reflexivity|]. inversion H; subst.
  rewrite (concat_rect_length _ (length r)) by auto. unfold size. cbn. lia.
Qed.
End Arrays.
