(** Lemmas about Lib/Text.v. *)
From Coq Require Import NArith Nnat.
From Verif.Lib Require Import Base Facts Text.
Local Open Scope N_scope.

Lemma str_app_assoc (a b c : string) : ((a ++ b) ++ c = a ++ (b ++ c))%string.
Proof. induction a as [|x a IH]; cbn; congruence. Qed.
Lemma str_app_nil_r (a : string) : (a ++ "" = a)%string.
Proof. induction a as [|x a IH]; cbn; congruence. Qed.

Lemma digit_val_of_digit d : d < 10 -> digit_val (ascii_of_N (48 + d)) = Some d.
Proof.
  intros H.
  assert (In d [0;1;2;3;4;5;6;7;8;9]) as Hin.
  { destruct d as [|p]; cbn; auto.
    do 10 (destruct p as [p|p|]; cbn in *; try lia; auto 20). }
  cbn in Hin. repeat (destruct Hin as [<-|Hin]; [reflexivity|]). destruct Hin.
Qed.

Lemma parse_dec_digits fuel n acc a :
  n < 10 ^ N.of_nat fuel -> exists k,
  parse_digits a (dec_digits fuel n acc) = parse_digits (a * 10 ^ k + n) acc.
Proof.
  revert n acc a; induction fuel as [|f IH]; intros n acc a Hn.
  - cbn in Hn. exists 0. cbn. assert (n = 0) as -> by lia. f_equal. lia.
  - assert (Hd : n mod 10 < 10) by (apply N.mod_lt; lia).
    cbn [dec_digits]. destruct (N.ltb_spec n 10) as [Hlt|Hge].
    + exists 1. cbn [parse_digits]. rewrite digit_val_of_digit by auto.
      rewrite N.mod_small by auto. f_equal.
    + assert (Hn' : n / 10 < 10 ^ N.of_nat f).
      { apply N.div_lt_upper_bound; [lia|].
        replace (N.of_nat (S f)) with (N.succ (N.of_nat f)) in Hn by lia.
        now rewrite N.pow_succ_r' in Hn. }
      destruct (IH (n / 10) (String (ascii_of_N (48 + n mod 10)) acc) a Hn') as [k Hk].
      exists (N.succ k). rewrite Hk. cbn [parse_digits].
      rewrite digit_val_of_digit by auto. f_equal.
      rewrite N.pow_succ_r'. pose proof (N.div_mod n 10). lia.
Qed.

Lemma dec_digits_nonempty fuel n acc : dec_digits (S fuel) n acc <> ""%string.
Proof.
  revert n acc; induction fuel as [|f IH]; intros n acc; cbn [dec_digits].
  - destruct (n <? 10); discriminate.
  - destruct (n <? 10); [discriminate|]. apply IH.
Qed.

Lemma fuel_enough n : n < 10 ^ N.of_nat (S (N.to_nat (N.log2 n))).
Proof.
  rewrite Nat2N.inj_succ, N2Nat.id.
  destruct (N.eq_dec n 0) as [->|Hn]; [now vm_compute|].
  apply N.lt_le_trans with (2 ^ N.succ (N.log2 n)).
  - apply N.log2_spec. lia.
  - apply N.pow_le_mono_l. lia.
Qed.

Lemma parse_N_str_of_N n : parse_N (str_of_N n) = Some n.
Proof.
  unfold parse_N. destruct (str_of_N n) as [|a s] eqn:E.
  - exfalso. unfold str_of_N in E. now apply dec_digits_nonempty in E.
  - rewrite <- E. unfold str_of_N.
    destruct (parse_dec_digits _ n "" 0 (fuel_enough n)) as [k Hk].
    rewrite Hk. cbn [parse_digits]. reflexivity.
Qed.

(** first character of a rendered natural is a digit *)
Definition is_digit (a : ascii) : bool := match digit_val a with Some _ => true | None => false end.
Fixpoint all_digits (s : string) : bool :=
  match s with EmptyString => true | String a s' => is_digit a && all_digits s' end.

Lemma dec_digits_all fuel n acc :
  all_digits acc = true -> all_digits (dec_digits fuel n acc) = true.
Proof.
  revert n acc; induction fuel as [|f IH]; intros n acc H; cbn [dec_digits]; auto.
  assert (Hd : all_digits (String (ascii_of_N (48 + n mod 10)) acc) = true).
  { cbn [all_digits]. unfold is_digit. rewrite digit_val_of_digit; auto. apply N.mod_lt; lia. }
  destruct (n <? 10); auto.
Qed.

Lemma str_of_N_all_digits n : all_digits (str_of_N n) = true.
Proof. now apply dec_digits_all. Qed.

Lemma str_of_N_nonempty n : str_of_N n <> ""%string.
Proof. apply dec_digits_nonempty. Qed.

Lemma digit_not_sign a : is_digit a = true -> a <> "-"%char /\ a <> "+"%char.
Proof. intros H; split; intros ->; discriminate. Qed.

Lemma parse_Z_digits s n : all_digits s = true -> parse_N s = Some n -> parse_Z s = Some (Z.of_N n).
Proof.
  destruct s as [|a s]; [discriminate|]. cbn [all_digits]. intros H Hp.
  apply andb_true_iff in H. destruct H as [Ha _]. apply digit_not_sign in Ha.
  unfold parse_Z.
  destruct a as [[] [] [] [] [] [] [] []]; try (rewrite Hp; reflexivity);
    exfalso; tauto.
Qed.

Lemma parse_Z_str_of_Z z : parse_Z (str_of_Z z) = Some z.
Proof.
  destruct z as [|p|p]; [reflexivity| |].
  - cbn [str_of_Z]. erewrite parse_Z_digits; [|apply str_of_N_all_digits|apply parse_N_str_of_N].
    reflexivity.
  - cbn [str_of_Z parse_Z]. now rewrite parse_N_str_of_N.
Qed.

Lemma str_of_Z_inj a b : str_of_Z a = str_of_Z b -> a = b.
Proof.
  intros H. assert (Some a = Some b) as E; [|now injection E].
  now rewrite <- !parse_Z_str_of_Z, H.
Qed.

Lemma str_of_N_inj a b : str_of_N a = str_of_N b -> a = b.
Proof.
  intros H. assert (Some a = Some b) as E; [|now injection E].
  now rewrite <- !parse_N_str_of_N, H.
Qed.

(** rendered integers are words *)
Lemma digit_no_space a : is_digit a = true -> is_space a = false.
Proof. destruct a as [[] [] [] [] [] [] [] []]; vm_compute; congruence. Qed.

Lemma all_digits_no_space s : all_digits s = true -> no_space s = true.
Proof.
  induction s as [|a s IH]; cbn [all_digits no_space]; auto. intros H.
  apply andb_true_iff in H. destruct H as [H1 H2]. rewrite digit_no_space; auto.
Qed.

Lemma word_str_of_N n : word (str_of_N n) = true.
Proof.
  unfold word. destruct (str_of_N n) eqn:E; [now apply str_of_N_nonempty in E|].
  rewrite <- E. apply all_digits_no_space, str_of_N_all_digits.
Qed.

Lemma word_str_of_Z z : word (str_of_Z z) = true.
Proof.
  destruct z as [|p|p]; [reflexivity|apply word_str_of_N|].
  cbn [str_of_Z word no_space]. change (is_space "-") with false. cbn.
  apply all_digits_no_space, str_of_N_all_digits.
Qed.

(** ** splitting *)
Local Open Scope nat_scope.

Lemma split_char_nonempty c s : split_char c s <> [].
Proof.
  induction s as [|a s IH]; cbn; [discriminate|].
  destruct (Ascii.eqb a c); [discriminate|]. destruct (split_char c s); congruence.
Qed.

Lemma split_char_app c x s :
  char_in c x = false ->
  split_char c (x ++ String c s)%string = x :: split_char c s.
Proof.
  induction x as [|a x IH]; cbn; intros H.
  - now rewrite Ascii.eqb_refl.
  - apply orb_false_iff in H. destruct H as [H1 H2]. rewrite Ascii.eqb_sym, H1.
    now rewrite IH.
Qed.

Lemma split_char_single c x : char_in c x = false -> split_char c x = [x].
Proof.
  induction x as [|a x IH]; cbn; intros H; auto.
  apply orb_false_iff in H. destruct H as [H1 H2]. rewrite Ascii.eqb_sym, H1.
  now rewrite IH.
Qed.

Lemma join_cons sep x y l : join sep (x :: y :: l) = (x ++ sep ++ join sep (y :: l))%string.
Proof. reflexivity. Qed.
Lemma str_char_app c s : (String c "" ++ s)%string = String c s.
Proof. reflexivity. Qed.

Lemma split_join_char c l :
  l <> [] -> forallb (fun s => negb (char_in c s)) l = true ->
  split_char c (join (String c "") l) = l.
Proof.
  induction l as [|x xs IH]; [congruence|]. intros _ H. cbn [forallb] in H.
  apply andb_true_iff in H. destruct H as [H1 H2]. apply negb_true_iff in H1.
  destruct xs as [|y ys].
  - cbn. now apply split_char_single.
  - rewrite join_cons, str_char_app, split_char_app by auto. f_equal. apply IH; [discriminate|auto].
Qed.

Lemma split_ws_acc_word cur w s :
  no_space w = true -> split_ws_acc cur (w ++ s)%string = split_ws_acc (cur ++ w)%string s.
Proof.
  revert cur; induction w as [|a w IH]; intros cur H; cbn.
  - now rewrite str_app_nil_r.
  - cbn in H. apply andb_true_iff in H. destruct H as [H1 H2].
    apply negb_true_iff in H1. rewrite H1, IH by auto. now rewrite str_app_assoc.
Qed.

Lemma word_no_space w : word w = true -> no_space w = true /\ w <> ""%string.
Proof. destruct w; cbn [word]; [discriminate|]. split; [auto|discriminate]. Qed.

Lemma split_ws_word_space w a s :
  word w = true -> is_space a = true ->
  split_ws (w ++ String a s)%string = w :: split_ws s.
Proof.
  intros Hw Ha. apply word_no_space in Hw. destruct Hw as [Hn Hne].
  unfold split_ws. rewrite split_ws_acc_word by auto. cbn [append split_ws_acc]. rewrite Ha.
  destruct w; [congruence|reflexivity].
Qed.

Lemma split_ws_word_end w : word w = true -> split_ws w = [w].
Proof.
  intros Hw. apply word_no_space in Hw. destruct Hw as [Hn Hne].
  unfold split_ws. rewrite <- (str_app_nil_r w) at 1. rewrite split_ws_acc_word by auto.
  cbn. destruct w; [congruence|reflexivity].
Qed.

Lemma split_ws_space a s : is_space a = true -> split_ws (String a s) = split_ws s.
Proof. intros H. unfold split_ws. cbn. now rewrite H. Qed.

(** tokens separated by one blank character, optionally followed by a newline *)
Lemma split_ws_join l :
  forallb word l = true -> split_ws (join " " l) = l.
Proof.
  induction l as [|x xs IH]; intros H; [reflexivity|].
  cbn [forallb] in H. apply andb_true_iff in H. destruct H as [H1 H2].
  destruct xs as [|y ys].
  - cbn. now apply split_ws_word_end.
  - rewrite join_cons, str_char_app, split_ws_word_space by auto. f_equal. apply IH; auto.
Qed.

Lemma split_ws_join_nl l :
  forallb word l = true -> split_ws (join " " l ++ nl)%string = l.
Proof.
  induction l as [|x xs IH]; intros H; [reflexivity|].
  cbn [forallb] in H. apply andb_true_iff in H. destruct H as [H1 H2].
  destruct xs as [|y ys].
  - cbn. unfold nl. rewrite split_ws_word_space by auto. reflexivity.
  - rewrite join_cons, !str_app_assoc, str_char_app, split_ws_word_space by auto. f_equal. apply IH; auto.
Qed.
