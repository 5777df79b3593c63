(** Tables: columns of equal length written row by row. *)
From Verif.Lib Require Import Base Facts Facts2.

(** The k-th entries of the columns; IndexError if a column is too short. *)
Definition row_at {A} (cols : list (list A)) (k : nat) : result (list A) :=
  mapM (fun c => of_option IndexError (nth_error c k)) cols.
(** [rows[:, j]]; [d] is not used for rows that are long enough. *)
Definition column {A} (d : A) (j : nat) (rows : list (list A)) : list A := map (fun r => nth j r d) rows.

(** The k-th entries, as a total function. *)
Definition row_of {A} (d : A) (cols : list (list A)) (k : nat) : list A := map (fun c => nth k c d) cols.

Lemma row_at_ok {A} (d : A) cols n k : Forall (fun c => length c = n) cols -> k < n -> row_at cols k = Ok (row_of d cols k).
Proof.
  intros H Hk. unfold row_at, row_of. induction H as [|c cols Hc H IH]; [reflexivity|]. cbn [mapM map].
  rewrite (nth_error_nth' c d) by lia. cbn [of_option bind]. now rewrite IH.
Qed.
Lemma map_nth_seq {A} (d : A) l : map (fun k => nth k l d) (seq 0 (length l)) = l.
Proof.
  induction l as [|x l IH]; [reflexivity|]. cbn [length seq map]. f_equal. rewrite <- seq_shift, map_map. exact IH.
Qed.
Lemma row_of_length {A} (d : A) cols k : length (row_of d cols k) = length cols.
Proof. apply map_length. Qed.
Lemma column_rows {A} (d : A) cols n j c : Forall (fun c => length c = n) cols -> nth_error cols j = Some c ->
  column d j (map (row_of d cols) (seq 0 n)) = c.
Proof.
  intros H Hj. unfold column. rewrite map_map. rewrite Forall_forall in H. pose proof (H c (nth_error_In _ _ Hj)) as Hc.
  rewrite <- (map_nth_seq d c), Hc. apply map_ext. intros k. unfold row_of.
  rewrite (nth_indep _ d (nth k [] d)) by (rewrite map_length; apply nth_error_Some; congruence).
  rewrite (map_nth (fun c => nth k c d)). f_equal. now apply nth_error_nth.
Qed.
(** A column behind others. *)
Lemma column_app {A} (d : A) j (l r : list (list A)) m n : length l = length r ->
  Forall (fun x => length x = m) l -> j = m + n -> column d j (map (fun p => fst p ++ snd p) (combine l r)) = column d n r.
Proof.
  intros Hl Hm ->. revert r Hl; induction Hm as [|x l Hx Hm IH]; intros [|y r] Hl; try discriminate; [reflexivity|].
  cbn [combine map column fst snd]. unfold column in *. rewrite IH by (cbn in Hl; lia). f_equal.
  rewrite app_nth2 by lia. f_equal. lia.
Qed.
Lemma columns_all {A} (d : A) cols n : Forall (fun c => length c = n) cols ->
  map (fun j => column d j (map (row_of d cols) (seq 0 n))) (seq 0 (length cols)) = cols.
Proof.
  intros H. transitivity (map (fun k => nth k cols []) (seq 0 (length cols))); [|apply map_nth_seq]. apply map_ext_in. intros j Hj. apply in_seq in Hj.
  apply column_rows; auto. apply nth_error_nth'. lia.
Qed.
