(** Lines of entries separated by commas. *)
From Verif.Lib Require Import Base Facts Facts2 Text TextFacts Lines LinesFacts BytesFacts.
From Verif.Model Require Import Core Abaqus.
From Verif.Spec Require Import Core Blocks Abaqus.
From Verif.Proofs Require Import Gmsh Xdmf.
From Coq Require Import ZifyBool ZifyNat.
Local Arguments str_of_nat : simpl never.
Local Arguments str_of_Z : simpl never.

Definition plain (e : string) : Prop := word e = true /\ char_in "," e = false.
Definition padded (p e : string) : Prop := exists n, p = (spaces n ++ e)%string.

Lemma spaces_S n : spaces (S n) = String " " (spaces n).
Proof. unfold spaces. cbn [repeat]. destruct n; reflexivity. Qed.
Lemma char_in_app c a b : char_in c (a ++ b)%string = char_in c a || char_in c b.
Proof. induction a as [|x a IH]; cbn [append char_in]; [reflexivity|]. rewrite IH. now rewrite orb_assoc. Qed.
Lemma char_in_spaces c n : is_space c = false -> char_in c (spaces n) = false.
Proof. intros H. induction n; [reflexivity|]. rewrite spaces_S. cbn [char_in]. rewrite IHn. destruct (Ascii.eqb_spec c " "); [subst; discriminate|reflexivity]. Qed.
Lemma lstrip_spaces n s : lstrip (spaces n ++ s)%string = lstrip s.
Proof. induction n; [reflexivity|]. rewrite spaces_S. cbn [append lstrip]. change (is_space " ") with true. exact IHn. Qed.
Lemma strip_spaces n : strip (spaces n) = "".
Proof. unfold strip. rewrite <- (str_app_nil_r (spaces n)), lstrip_spaces. reflexivity. Qed.
Lemma word_lstrip w s : word w = true -> lstrip (w ++ s)%string = (w ++ s)%string.
Proof.
  intros H. apply word_no_space in H. destruct H as [H Hne]. destruct w as [|a w]; [congruence|]. cbn [no_space append lstrip] in *.
  apply andb_true_iff in H. destruct H as [H _]. apply negb_true_iff in H. now rewrite H.
Qed.
Lemma strip_padded p e : padded p e -> word e = true -> strip p = e.
Proof.
  intros [n ->] H. unfold strip. rewrite lstrip_spaces. rewrite <- (str_app_nil_r e) at 1. rewrite word_lstrip by auto. rewrite str_app_nil_r.
  apply rstrip_no_space. now apply word_no_space.
Qed.
Lemma padded_self e : padded e e.
Proof. now exists 0. Qed.

Lemma join_snoc sep l x : l <> [] -> join sep (l ++ [x]) = (join sep l ++ sep ++ x)%string.
Proof.
  induction l as [|a l IH]; [congruence|]. intros _. destruct l as [|b l]; [reflexivity|].
  cbn [app]. rewrite !join_cons. cbn [app] in IH. rewrite IH by discriminate. now rewrite !str_app_assoc.
Qed.
Lemma join_last sep l x : exists s, join sep (l ++ [x]) = (s ++ x)%string.
Proof.
  destruct l as [|a l]; [now exists ""|]. exists (join sep (a :: l) ++ sep)%string. rewrite join_snoc by discriminate. now rewrite str_app_assoc.
Qed.

(** The text of a row without its leading blanks. *)
Definition tail_entry (comma : bool) : list string := if comma then [""] else [].
Lemma row_text pad comma es : es <> [] -> Forall plain es ->
  exists ps, Forall2 padded ps es /\ hd "" ps = hd "" es /\
    strip (line_text (Row pad comma es)) = join "," (ps ++ tail_entry comma).
Proof.
  intros Hne Hp. destruct es as [|e es]; [congruence|]. clear Hne. inversion Hp as [|? ? [He Hec] Hp']; subst.
  set (P := map (fun ke => (spaces (pad (fst ke)) ++ snd ke)%string) (combine (seq 1 (length es)) es)).
  assert (HP : Forall2 padded P es).
  { unfold P. clear. generalize 1. induction es as [|x es IH]; intros k; cbn [length seq combine map]; constructor; [now eexists|apply IH]. }
  exists (e :: P). split; [constructor; [apply padded_self|exact HP]|]. split; [reflexivity|].
  assert (El : line_text (Row pad comma (e :: es)) = (spaces (pad 0) ++ join "," ((e :: P) ++ tail_entry comma))%string).
  { unfold line_text, enumerate. cbn [length seq combine map fst snd]. fold P. destruct comma; cbn [tail_entry].
    - rewrite join_snoc by discriminate. destruct P as [|p P']; cbn [append]; [cbn; now rewrite str_app_assoc|]. rewrite !join_cons. now rewrite !str_app_assoc.
    - rewrite app_nil_r, str_app_nil_r. destruct P as [|p P']; [reflexivity|]. rewrite !join_cons. now rewrite !str_app_assoc. }
  rewrite El. unfold strip. rewrite lstrip_spaces.
  assert (Es : exists s, join "," ((e :: P) ++ tail_entry comma) = (e ++ s)%string).
  { cbn [app]. destruct (P ++ tail_entry comma); [exists ""; cbn; now rewrite str_app_nil_r|]. eexists. apply join_cons. }
  destruct Es as [s Es]. rewrite Es, word_lstrip, <- Es by auto.
  destruct comma; cbn [tail_entry].
  - rewrite join_snoc by discriminate. rewrite (rstrip_app_word _ ("," ++ "")) by reflexivity. reflexivity.
  - rewrite app_nil_r. assert (Hl : exists l x w, e :: P = l ++ [x] /\ padded x w /\ word w = true).
    { assert (G : Forall2 padded (e :: P) (e :: es)) by (constructor; [apply padded_self|exact HP]).
      destruct (exists_last (l := e :: P)) as (l & x & E); [discriminate|]. rewrite E in G. apply Forall2_app_inv_l in G.
      destruct G as (l1 & l2 & _ & H2 & E2). inversion H2 as [|? w ? ? Hw Hn]; subst. inversion Hn; subst.
      exists l, x, w. split; [exact E|]. split; [exact Hw|]. rewrite Forall_forall in Hp. apply Hp. rewrite E2. apply in_or_app. right. now left. }
    destruct Hl as (l & x & w & -> & [n ->] & Hw). destruct (join_last "," l (spaces n ++ w)) as [s' ->]. rewrite <- str_app_assoc. now apply rstrip_app_word.
Qed.
Lemma padded_char c p e : padded p e -> is_space c = false -> char_in c e = false -> char_in c p = false.
Proof. intros [n ->] H1 H2. now rewrite char_in_app, char_in_spaces, H2. Qed.
Lemma row_split pad comma es : es <> [] -> Forall plain es ->
  exists ps, Forall2 padded ps es /\ hd "" ps = hd "" es /\ ps <> [] /\
    strip (line_text (Row pad comma es)) = join "," (ps ++ tail_entry comma) /\
    split_char "," (strip (line_text (Row pad comma es))) = ps ++ tail_entry comma.
Proof.
  intros Hne Hp. destruct (row_text pad comma es Hne Hp) as (ps & H1 & H2 & H3). exists ps.
  assert (Hps : ps <> []) by (intros ->; inversion H1; subst; congruence).
  repeat (split; [assumption|]). rewrite H3. apply split_join_char; [destruct ps; [congruence|discriminate]|].
  rewrite forallb_app. apply andb_true_iff. split; [|destruct comma; reflexivity].
  clear - H1 Hp. induction H1 as [|p e ps es Hpe H IH]; [reflexivity|]. inversion Hp as [|? ? [_ Hc] Hp']; subst. cbn [forallb].
  rewrite (padded_char "," p e Hpe eq_refl Hc). now apply IH.
Qed.
Lemma strips_padded ps es : Forall2 padded ps es -> Forall plain es -> map strip ps = es.
Proof. intros H Hp. induction H as [|p e ps es Hpe H IH]; [reflexivity|]. inversion Hp as [|? ? [Hw _] Hp']; subst. cbn [map]. f_equal; [now apply strip_padded|auto]. Qed.
Lemma padded_nonempty p e : padded p e -> word e = true -> p <> "".
Proof. intros Hp Hw ->. apply strip_padded in Hp; auto. change (strip "") with "" in Hp. subst. discriminate. Qed.
Lemma row_nonblank pad comma es : es <> [] -> Forall plain es -> strip (line_text (Row pad comma es)) <> "".
Proof.
  intros Hne Hp E. destruct (row_split pad comma es Hne Hp) as (ps & H1 & H2 & H3 & _ & H4). rewrite E in H4. cbn in H4.
  destruct ps as [|p ps]; [congruence|]. cbn [app] in H4. injection H4 as E1 E2. inversion H1 as [|? ? ? ? Hpe _]; subst.
  inversion Hp as [|? ? [Hw _] _]; subst. now apply (padded_nonempty _ _ Hpe).
Qed.

Lemma plain_str_of_Z z : plain (str_of_Z z).
Proof. split; [apply word_str_of_Z|apply char_in_str_of_Z; [reflexivity|discriminate]]. Qed.
Lemma plain_ints zs : Forall plain (map str_of_Z zs).
Proof. apply Forall_map, Forall_forall. intros z _. apply plain_str_of_Z. Qed.
Lemma py_int_padded p z : padded p (str_of_Z z) -> py_int p = Ok z.
Proof. intros H. unfold py_int. rewrite (strip_padded _ _ H) by apply word_str_of_Z. now rewrite parse_Z_str_of_Z. Qed.
Lemma py_ints_padded ps zs : Forall2 padded ps (map str_of_Z zs) -> mapM py_int ps = Ok zs.
Proof.
  revert ps; induction zs as [|z zs IH]; intros ps H; inversion H; subst; [reflexivity|]. cbn [mapM].
  rewrite (py_int_padded _ z) by auto. cbn [bind]. now rewrite IH.
Qed.

Lemma cell_line_ok pad comma zs : zs <> [] -> cell_line (line_text (Row pad comma (map str_of_Z zs))) = Ok zs.
Proof.
  intros Hne. destruct (row_split pad comma (map str_of_Z zs)) as (ps & H1 & _ & _ & _ & H4); [destruct zs; [congruence|discriminate]|apply plain_ints|].
  unfold cell_line. rewrite H4, filter_app.
  assert (E : filter (fun t => negb (String.eqb t "")) ps = ps).
  { pose proof (plain_ints zs) as Hp. clear - H1 Hp. revert Hp. induction H1 as [|p e ps es Hpe H IH]; intros Hp; [reflexivity|]. inversion Hp as [|? ? [Hw _] Hp']; subst.
    cbn [filter]. pose proof (padded_nonempty _ _ Hpe Hw) as Hn. apply String.eqb_neq in Hn. rewrite Hn. cbn [negb]. f_equal. auto. }
  rewrite E. assert (Et : filter (fun t => negb (String.eqb t "")) (tail_entry comma) = []) by (destruct comma; reflexivity).
  rewrite Et, app_nil_r. now apply py_ints_padded.
Qed.

Lemma lstrip_char_id c s : (match s with String a _ => Ascii.eqb a c = false | _ => True end) -> lstrip_char c s = s.
Proof. destruct s; cbn; [reflexivity|]. now intros ->. Qed.
Lemma rstrip_char_app c s w : w <> "" -> char_in c w = false -> rstrip_char c (s ++ w)%string = (s ++ w)%string.
Proof.
  intros Hne H. assert (Hw : rstrip_char c w = w).
  { clear Hne. induction w as [|a w IH]; [reflexivity|]. cbn [char_in rstrip_char] in *. apply orb_false_iff in H. destruct H as [Ha Hw].
    rewrite IH by auto. rewrite Ascii.eqb_sym in Ha. rewrite Ha. destruct w; reflexivity. }
  induction s as [|a s IH]; cbn [append rstrip_char]; [exact Hw|]. rewrite IH.
  destruct (s ++ w)%string eqn:E; [|reflexivity]. destruct s; cbn in E; congruence.
Qed.
Lemma rstrip_char_drop c s : rstrip_char c (s ++ String c "")%string = rstrip_char c s.
Proof. induction s as [|a s IH]; cbn [append rstrip_char]; [now rewrite Ascii.eqb_refl|]. now rewrite IH. Qed.

Lemma digits_all s : all_digits s = true -> digits s = true.
Proof. induction s as [|a s IH]; cbn [all_digits digits]; auto. Qed.
Lemma isnumeric_str z : (0 <= z)%Z -> isnumeric (str_of_Z z) = true.
Proof.
  intros H. unfold isnumeric. pose proof (word_no_space _ (word_str_of_Z z)) as [_ Hne]. apply String.eqb_neq in Hne. rewrite Hne. cbn [negb andb].
  destruct z as [|p|p]; [reflexivity| |lia]. apply digits_all, str_of_N_all_digits.
Qed.
Lemma set_line_ok pad comma z zs : (0 <= z)%Z -> set_line (line_text (Row pad comma (map str_of_Z (z :: zs)))) = Ok (inl (z :: zs)).
Proof.
  intros Hz. destruct (row_split pad comma (map str_of_Z (z :: zs))) as (ps & H1 & H2 & H3 & H4 & H5); [discriminate|apply plain_ints|].
  unfold set_line. rewrite H4.
  assert (Es : strip_char "," (join "," (ps ++ tail_entry comma)) = join "," ps).
  { assert (El : lstrip_char "," (join "," (ps ++ tail_entry comma)) = join "," (ps ++ tail_entry comma)).
    { apply lstrip_char_id. destruct ps as [|p ps]; [congruence|]. cbn [hd map] in H2. subst p. cbn [app].
      pose proof (plain_str_of_Z z) as [Hw Hc]. destruct (str_of_Z z) as [|a s]; [discriminate|].
      cbn [char_in] in Hc. apply orb_false_iff in Hc. destruct Hc as [Hc _]. rewrite Ascii.eqb_sym in Hc.
      destruct (ps ++ tail_entry comma); cbn; exact Hc. }
    unfold strip_char. rewrite El.
    assert (Er : rstrip_char "," (join "," ps) = join "," ps).
    { destruct (exists_last H3) as (l & x & ->). apply Forall2_app_inv_l in H1. destruct H1 as (l1 & l2 & _ & Hx & E). inversion Hx as [|? w ? ? Hw Hn]; subst. inversion Hn; subst.
      destruct Hw as [n ->]. destruct (join_last "," l (spaces n ++ w)) as [s ->]. rewrite <- str_app_assoc.
      assert (Hpw : plain w). { pose proof (plain_ints (z :: zs)) as Hp. rewrite Forall_forall in Hp. apply Hp. rewrite E. apply in_or_app. right. now left. }
      destruct Hpw as [Hw Hc]. apply rstrip_char_app; [|exact Hc]. now intros ->. }
    destruct comma; cbn [tail_entry]; [|now rewrite app_nil_r].
    rewrite join_snoc by auto. change ("," ++ "")%string with (String "," ""). now rewrite rstrip_char_drop. }
  rewrite Es. assert (Ep : split_char "," (join "," ps) = ps).
  { apply split_join_char; [exact H3|]. pose proof (plain_ints (z :: zs)) as Hp. clear - H1 Hp. revert Hp. induction H1 as [|p e ps es Hpe H IH]; intros Hp; [reflexivity|].
    inversion Hp as [|? ? [_ Hc] Hp']; subst. cbn [forallb]. rewrite (padded_char "," p e Hpe eq_refl Hc). auto. }
  rewrite Ep, H2. cbn [map hd]. rewrite isnumeric_str by auto. change (str_of_Z z :: map str_of_Z zs) with (map str_of_Z (z :: zs)) in H1.
  now rewrite (py_ints_padded _ _ H1).
Qed.

(** ** Data lines *)
Lemma prefix_star s : startswith s "*" = match s with String "*" _ => true | _ => false end.
Proof.
  unfold startswith. destruct s as [|a s]; [reflexivity|]. cbn [prefix]. destruct (ascii_dec "*" a) as [<-|H]; [destruct s; reflexivity|].
  destruct a as [[] [] [] [] [] [] [] []]; try reflexivity. congruence.
Qed.
Lemma row_no_star pad comma e es : (match e with String a _ => a <> "*"%char | "" => False end) -> startswith (line_text (Row pad comma (e :: es))) "*" = false.
Proof.
  intros H. destruct e as [|a e]; [destruct H|].
  assert (G : exists s, line_text (Row pad comma (String a e :: es)) = (spaces (pad 0) ++ String a s)%string).
  { unfold line_text, enumerate. cbn [length seq combine map fst snd].
    match goal with |- exists s, (join _ (_ :: ?l) ++ ?c)%string = _ => destruct l as [|p P'] end.
    - cbn. eexists. rewrite str_app_assoc. cbn. reflexivity.
    - rewrite join_cons. eexists. rewrite !str_app_assoc. cbn [append]. reflexivity. }
  destruct G as [s ->]. rewrite prefix_star. destruct (pad 0) as [|n]; [|rewrite spaces_S; reflexivity]. cbn [append spaces repeat String.concat].
  change (String a s) with (String a s). destruct a as [[] [] [] [] [] [] [] []]; try reflexivity. congruence.
Qed.
Lemma str_head z : match str_of_Z z with String a _ => a <> "*"%char | "" => False end.
Proof.
  pose proof (word_no_space _ (word_str_of_Z z)) as [_ Hne]. assert (Hc : char_in "*" (str_of_Z z) = false) by (apply char_in_str_of_Z; [reflexivity|discriminate]).
  destruct (str_of_Z z) as [|a s]; [congruence|]. cbn [char_in] in Hc. apply orb_false_iff in Hc. destruct Hc as [Hc _]. apply Ascii.eqb_neq in Hc. congruence.
Qed.
Lemma blank_no_star n : startswith (line_text (Blank n)) "*" = false.
Proof. cbn [line_text]. rewrite prefix_star. destruct n; [reflexivity|]. now rewrite spaces_S. Qed.

(** Reading data lines row by row. *)
Lemma rows_read {A} (f : string -> result A) (P : data_line -> Prop) g ds :
  (forall pad comma es, P (Row pad comma es) -> strip (line_text (Row pad comma es)) <> "" /\ f (line_text (Row pad comma es)) = g es) ->
  Forall P ds -> mapM f (nonblank (map line_text ds)) = mapM g (entries ds).
Proof.
  intros Hf HP. induction HP as [|d ds Hd H IH]; [reflexivity|]. cbn [map]. unfold nonblank in *. cbn [filter]. unfold entries in *. cbn [flat_map].
  destruct d as [n|pad comma es]; cbn [line_entries app].
  - cbn [line_text]. rewrite strip_spaces. cbn. exact IH.
  - destruct (Hf pad comma es Hd) as [Hn Hv]. apply String.eqb_neq in Hn. rewrite Hn. cbn [negb mapM]. rewrite Hv.
    destruct (g es); cbn [bind]; [|reflexivity]. now rewrite IH.
Qed.
