(** Hexadecimal integers: f"{n:x}", "%x" % n and int(s, 16). *)
From Coq Require Import NArith Nnat Lia.
From Verif.Lib Require Import Base Facts Text TextFacts.

Definition hex_char (d : N) : ascii := ascii_of_N (if (d <? 10)%N then 48 + d else 87 + d).
Fixpoint hex_digits (fuel : nat) (n : N) (acc : string) : string :=
  match fuel with
  | O => acc
  | S f => let d := String (hex_char (n mod 16)) acc in if (n <? 16)%N then d else hex_digits f (n / 16) d
  end.
Definition hex_of_N (n : N) : string := hex_digits (S (N.to_nat (N.log2 n))) n "".
Definition hex_of_Z (z : Z) : string :=
  match z with Z0 => "0" | Zpos p => hex_of_N (Npos p) | Zneg p => String "-" (hex_of_N (Npos p)) end.

Definition hex_val (a : ascii) : option N :=
  let n := N_of_ascii a in
  (if (48 <=? n) && (n <=? 57) then Some (n - 48)
   else if (97 <=? n) && (n <=? 102) then Some (n - 87)
   else if (65 <=? n) && (n <=? 70) then Some (n - 55) else None)%N.
Fixpoint parse_hex_digits (acc : N) (s : string) : option N :=
  match s with
  | EmptyString => Some acc
  | String a s' => match hex_val a with Some d => parse_hex_digits (acc * 16 + d)%N s' | None => None end
  end.
Definition parse_hex_N (s : string) : option N := match s with EmptyString => None | _ => parse_hex_digits 0 s end.
(** [int(s, 16)] on a token without blanks.  Simplification: no prefix 0x and no underscores. *)
Definition parse_hex (s : string) : option Z :=
  match s with
  | String "-"%char s' => option_map (fun n => (- Z.of_N n)%Z) (parse_hex_N s')
  | String "+"%char s' => option_map Z.of_N (parse_hex_N s')
  | _ => option_map Z.of_N (parse_hex_N s)
  end.

Local Open Scope N_scope.
Lemma digit16 d : d < 16 -> In d [0;1;2;3;4;5;6;7;8;9;10;11;12;13;14;15].
Proof. intros H. destruct d as [|p]; [now left|]. do 5 (destruct p as [p|p|]; cbn in *; try lia; auto 20). Qed.
Lemma hex_val_char d : d < 16 -> hex_val (hex_char d) = Some d.
Proof. intros H. apply digit16 in H. cbn in H. repeat (destruct H as [<-|H]; [reflexivity|]). destruct H. Qed.
Lemma parse_hex_back fuel n acc a : n < 16 ^ N.of_nat fuel -> exists k, parse_hex_digits a (hex_digits fuel n acc) = parse_hex_digits (a * 16 ^ k + n) acc.
Proof.
  revert n acc a; induction fuel as [|f IH]; intros n acc a Hn.
  - cbn in Hn. exists 0. cbn. assert (n = 0) as -> by lia. f_equal. lia.
  - assert (Hd : n mod 16 < 16) by (apply N.mod_lt; lia).
    cbn [hex_digits]. destruct (N.ltb_spec n 16) as [Hlt|Hge].
    + exists 1. cbn [parse_hex_digits]. rewrite hex_val_char by auto. rewrite N.mod_small by auto. f_equal.
    + assert (Hn' : n / 16 < 16 ^ N.of_nat f).
      { apply N.div_lt_upper_bound; [lia|]. replace (N.of_nat (S f)) with (N.succ (N.of_nat f)) in Hn by lia. now rewrite N.pow_succ_r' in Hn. }
      destruct (IH (n / 16) (String (hex_char (n mod 16)) acc) a Hn') as [k Hk].
      exists (N.succ k). rewrite Hk. cbn [parse_hex_digits]. rewrite hex_val_char by auto. f_equal.
      rewrite N.pow_succ_r'. pose proof (N.div_mod n 16). lia.
Qed.
Lemma hex_digits_nonempty fuel n acc : hex_digits (S fuel) n acc <> ""%string.
Proof.
  revert n acc; induction fuel as [|f IH]; intros n acc; cbn [hex_digits].
  - destruct (n <? 16); discriminate.
  - destruct (n <? 16); [discriminate|]. apply IH.
Qed.
Lemma hex_fuel n : n < 16 ^ N.of_nat (S (N.to_nat (N.log2 n))).
Proof.
  rewrite Nat2N.inj_succ, N2Nat.id. destruct (N.eq_dec n 0) as [->|Hn]; [now vm_compute|].
  apply N.lt_le_trans with (2 ^ N.succ (N.log2 n)); [apply N.log2_spec; lia|apply N.pow_le_mono_l; lia].
Qed.
Lemma parse_hex_of_N n : parse_hex_N (hex_of_N n) = Some n.
Proof.
  unfold parse_hex_N. destruct (hex_of_N n) as [|a s] eqn:E.
  - exfalso. unfold hex_of_N in E. now apply hex_digits_nonempty in E.
  - rewrite <- E. unfold hex_of_N. destruct (parse_hex_back _ n "" 0 (hex_fuel n)) as [k Hk]. rewrite Hk. reflexivity.
Qed.
(** Characters of hexadecimal numbers. *)
Definition is_hex (a : ascii) : bool := match hex_val a with Some _ => true | None => false end.
Fixpoint all_hex (s : string) : bool := match s with EmptyString => true | String a s' => is_hex a && all_hex s' end.
Lemma hex_digits_all fuel n acc : all_hex acc = true -> all_hex (hex_digits fuel n acc) = true.
Proof.
  revert n acc; induction fuel as [|f IH]; intros n acc H; cbn [hex_digits]; auto.
  assert (Hd : all_hex (String (hex_char (n mod 16)) acc) = true).
  { cbn [all_hex]. unfold is_hex. rewrite hex_val_char; auto. apply N.mod_lt; lia. }
  destruct (n <? 16); auto.
Qed.
Lemma hex_of_N_all n : all_hex (hex_of_N n) = true.
Proof. now apply hex_digits_all. Qed.
Lemma hex_no_space s : all_hex s = true -> no_space s = true.
Proof.
  induction s as [|a s IH]; [reflexivity|]. cbn [all_hex no_space]. intros H. apply andb_true_iff in H. destruct H as [Ha Hs]. rewrite IH by auto. rewrite andb_true_r.
  destruct a as [[] [] [] [] [] [] [] []]; try reflexivity; discriminate.
Qed.
Lemma parse_hex_of_Z z : parse_hex (hex_of_Z z) = Some z.
Proof.
  destruct z as [|p|p]; [reflexivity| |].
  - cbn [hex_of_Z]. unfold parse_hex. pose proof (parse_hex_of_N (Npos p)) as E. pose proof (hex_of_N_all (Npos p)) as A. destruct (hex_of_N (N.pos p)) as [|a s]; [discriminate|].
    cbn [all_hex] in A. apply andb_true_iff in A. destruct A as [A _]. destruct a as [[] [] [] [] [] [] [] []]; try discriminate A; now rewrite E.
  - cbn [hex_of_Z parse_hex]. now rewrite parse_hex_of_N.
Qed.
Lemma word_hex z : word (hex_of_Z z) = true.
Proof.
  destruct z as [|p|p]; [reflexivity| |]; cbn [hex_of_Z].
  - pose proof (hex_no_space _ (hex_of_N_all (Npos p))) as H. pose proof (parse_hex_of_N (Npos p)) as E. destruct (hex_of_N (N.pos p)); [discriminate|exact H].
  - cbn [word no_space]. now apply hex_no_space, hex_of_N_all.
Qed.
Lemma char_in_hex c z : hex_val c = None -> c <> "-"%char -> char_in c (hex_of_Z z) = false.
Proof.
  assert (G : forall s, hex_val c = None -> all_hex s = true -> char_in c s = false).
  { induction s as [|a s IH]; [reflexivity|]. cbn [all_hex char_in]. intros Hc H. apply andb_true_iff in H. destruct H as [Ha Hs]. rewrite IH by auto. rewrite orb_false_r.
    destruct (Ascii.eqb_spec c a) as [->|]; [|reflexivity]. unfold is_hex in Ha. now rewrite Hc in Ha. }
  intros Hc Hm. destruct z as [|p|p]; cbn [hex_of_Z].
  - apply (G "0"%string); auto.
  - apply G; auto. apply hex_of_N_all.
  - cbn [char_in]. destruct (Ascii.eqb_spec c "-"); [contradiction|]. apply G; auto. apply hex_of_N_all.
Qed.
