(** Facts about line based reading. *)
From Verif.Lib Require Import Base Facts Facts2 Text TextFacts Lines.

Lemma int_floats_ok : floats_ok int_floats.
Proof. intros v. split; [apply word_str_of_Z|apply parse_Z_str_of_Z]. Qed.

(** ** strip *)
Lemma rstrip_no_space s : no_space s = true -> rstrip s = s.
Proof.
  induction s as [|a s IH]; cbn [no_space rstrip]; auto. intros H. apply andb_true_iff in H. destruct H as [Ha Hs].
  rewrite IH by auto. apply negb_true_iff in Ha. rewrite Ha. destruct s; reflexivity.
Qed.
Lemma strip_word s : word s = true -> strip s = s.
Proof.
  intros H. apply word_no_space in H. destruct H as [H Hne]. destruct s as [|a s]; [congruence|].
  unfold strip. cbn [lstrip]. cbn [no_space] in H. assert (H' := H). apply andb_true_iff in H'. destruct H' as [Ha _].
  apply negb_true_iff in Ha. rewrite Ha. now apply rstrip_no_space.
Qed.

Lemma rstrip_app_word s w : word w = true -> rstrip (s ++ w)%string = (s ++ w)%string.
Proof.
  intros H. apply word_no_space in H. destruct H as [H Hne].
  induction s as [|a s IH]; cbn [append rstrip]; [now apply rstrip_no_space|].
  rewrite IH. destruct (s ++ w)%string eqn:E; [|reflexivity].
  destruct s; cbn in E; congruence.
Qed.

(** A line that starts and ends with a token is not changed by strip. *)
Lemma strip_row ts : forallb word ts = true -> strip (row_line ts) = row_line ts.
Proof.
  intros H. unfold row_line.
  assert (Hl : lstrip (join " " ts) = join " " ts).
  { destruct ts as [|t ts]; [reflexivity|]. cbn [forallb] in H. apply andb_true_iff in H. destruct H as [Ht _].
    apply word_no_space in Ht. destruct Ht as [Hn Hne]. destruct t as [|a t]; [congruence|].
    cbn [no_space] in Hn. apply andb_true_iff in Hn. destruct Hn as [Ha _]. apply negb_true_iff in Ha.
    destruct ts; cbn; now rewrite Ha. }
  unfold strip. rewrite Hl. clear Hl. induction ts as [|t ts IH]; [reflexivity|].
  cbn [forallb] in H. apply andb_true_iff in H. destruct H as [Ht H]. destruct ts as [|u ts].
  - cbn. apply word_no_space in Ht. now apply rstrip_no_space.
  - rewrite join_cons. specialize (IH H).
    assert (E : exists s w, join " " (u :: ts) = (s ++ w)%string /\ word w = true).
    { clear - H. revert u H. induction ts as [|v ts IH]; intros u H.
      - exists ""%string, u. cbn in H. rewrite andb_true_r in H. auto.
      - cbn [forallb] in H. apply andb_true_iff in H. destruct H as [Hu H].
        destruct (IH v H) as (s & w & E & Hw). exists (u ++ " " ++ s)%string, w. split; auto.
        rewrite join_cons, E, !str_app_assoc. reflexivity. }
    destruct E as (s & w & E & Hw). rewrite E.
    replace (t ++ " " ++ s ++ w)%string with ((t ++ " " ++ s) ++ w)%string by (rewrite !str_app_assoc; reflexivity).
    now rewrite rstrip_app_word.
Qed.

Lemma int_line_str z : int_line (str_of_Z z) = Ok z.
Proof. unfold int_line. rewrite strip_word by apply word_str_of_Z. now rewrite parse_Z_str_of_Z. Qed.
Lemma str_of_nat_Z n : str_of_nat n = str_of_Z (Z.of_nat n).
Proof. unfold str_of_nat. destruct n; [reflexivity|]. cbn [Z.of_nat str_of_Z]. f_equal. Qed.
Lemma int_line_nat n : int_line (str_of_nat n) = Ok (Z.of_nat n).
Proof. rewrite str_of_nat_Z. apply int_line_str. Qed.
Lemma word_str_of_nat n : word (str_of_nat n) = true.
Proof. apply word_str_of_N. Qed.

(** ** tokens *)
Lemma blank_split s : blank s = true <-> split_ws s = [].
Proof. unfold blank. destruct (split_ws s); split; congruence. Qed.
Lemma blank_word s : word s = true -> blank s = false.
Proof. intros H. unfold blank. now rewrite split_ws_word_end. Qed.
Lemma blank_row ts : forallb word ts = true -> ts <> [] -> blank (row_line ts) = false.
Proof. intros H Hne. unfold blank, row_line. rewrite split_ws_join by auto. destruct ts; congruence. Qed.

Lemma read_lines_ok {A} (f : string -> result A) lines xs rest :
  mapM f lines = Ok xs -> read_lines f (length lines) (lines ++ rest) = Ok (xs, rest).
Proof.
  revert xs; induction lines as [|l lines IH]; intros xs H; cbn in *; [injection H as <-; reflexivity|].
  destruct (f l) as [x|e]; cbn in *; [|discriminate]. destruct (mapM f lines) as [ys|e]; cbn in *; [|discriminate].
  injection H as <-. now rewrite (IH ys eq_refl).
Qed.

Lemma read_lines_n {A} (f : string -> result A) n lines xs rest :
  n = length lines -> mapM f lines = Ok xs -> read_lines f n (lines ++ rest) = Ok (xs, rest).
Proof. intros ->. apply read_lines_ok. Qed.

Lemma drop_blank_idem ls : drop_blank (drop_blank ls) = drop_blank ls.
Proof.
  induction ls as [|l ls IH]; cbn; auto. destruct (blank l) eqn:E; auto. cbn. now rewrite E.
Qed.

Lemma take_tokens_pos_ok lines rest :
  lines <> [] -> Forall (fun l => blank l = false) lines ->
  take_tokens_pos (length (flat_map split_ws lines)) (lines ++ rest) =
  Some (flat_map split_ws lines, drop_blank rest).
Proof.
  intros Hne H. induction H as [|l lines Hl H IH]; [congruence|].
  cbn [flat_map app take_tokens_pos]. rewrite app_length.
  assert (Hpos : 0 < length (split_ws l)) by (unfold blank in Hl; destruct (split_ws l); cbn in *; [discriminate|lia]).
  destruct lines as [|l2 lines].
  - cbn [flat_map length app]. rewrite Nat.add_0_r, Nat.ltb_irrefl, firstn_all, skipn_all, app_nil_r.
    cbn [join String.concat drop_blank]. reflexivity.
  - assert (Hlt : length (split_ws l) < length (split_ws l) + length (flat_map split_ws (l2 :: lines))).
    { inversion H; subst. unfold blank in H2. cbn [flat_map]. rewrite app_length.
      destruct (split_ws l2); cbn in *; [discriminate|lia]. }
    apply Nat.ltb_lt in Hlt. rewrite Hlt.
    replace (length (split_ws l) + length (flat_map split_ws (l2 :: lines)) - length (split_ws l))
      with (length (flat_map split_ws (l2 :: lines))) by lia.
    rewrite IH by discriminate. reflexivity.
Qed.

Definition solid (rest : list string) : Prop := drop_blank rest = rest.
Lemma solid_nil : solid [].
Proof. reflexivity. Qed.
Lemma solid_cons l ls : blank l = false -> solid (l :: ls).
Proof. intros H. unfold solid. cbn. now rewrite H. Qed.

Lemma take_tokens_ok lines rest n : solid rest ->
  Forall (fun l => blank l = false) lines -> n = length (flat_map split_ws lines) ->
  take_tokens n (lines ++ rest) = Some (flat_map split_ws lines, rest).
Proof.
  intros Hr H ->. destruct lines as [|l lines]; [reflexivity|].
  assert (E : exists k, length (flat_map split_ws (l :: lines)) = S k).
  { inversion H; subst. unfold blank in H2. cbn [flat_map]. rewrite app_length.
    destruct (split_ws l); [discriminate|]. cbn. eauto. }
  destruct E as [k Ek]. unfold take_tokens. rewrite Ek, <- Ek.
  rewrite take_tokens_pos_ok by (auto; discriminate). now rewrite Hr.
Qed.

(** Rows of tokens. *)
Lemma take_rows rows rest n : solid rest ->
  Forall (fun r => forallb word r = true /\ r <> []) rows -> n = length (concat rows) ->
  take_tokens n (map row_line rows ++ rest) = Some (concat rows, rest).
Proof.
  intros Hr H Hn.
  assert (E : flat_map split_ws (map row_line rows) = concat rows).
  { clear Hn. induction H as [|r rows [Hw _] H IH]; [reflexivity|]. cbn [map flat_map concat]. rewrite IH.
    unfold row_line at 1. now rewrite split_ws_join. }
  rewrite <- E in *. apply take_tokens_ok; auto.
  clear - H. induction H as [|r rows [Hw Hne] H IH]; constructor; auto. now apply blank_row.
Qed.

Lemma skip_to_here s rest : word s = true -> skip_to s (s :: rest) = rest.
Proof. intros H. cbn. rewrite strip_word by auto. now rewrite String.eqb_refl. Qed.

Lemma parse_ints_ok zs : parse_ints (map str_of_Z zs) = Ok zs.
Proof.
  unfold parse_ints. induction zs as [|z zs IH]; [reflexivity|]. cbn [map mapM].
  rewrite parse_Z_str_of_Z. cbn [of_option bind]. now rewrite IH.
Qed.
Lemma parse_floats_ok {fl : floats} (vs : list fl) : floats_ok fl -> parse_floats (map ffmt vs) = Ok vs.
Proof.
  intros H. unfold parse_floats. induction vs as [|v vs IH]; [reflexivity|]. cbn [map mapM].
  destruct (H v) as [_ ->]. cbn [of_option bind]. now rewrite IH.
Qed.
Lemma words_ints zs : forallb word (map str_of_Z zs) = true.
Proof. induction zs; cbn [map forallb]; auto. now rewrite word_str_of_Z. Qed.
Lemma words_floats {fl : floats} (vs : list fl) : floats_ok fl -> forallb word (map ffmt vs) = true.
Proof. intros H. induction vs as [|v vs IH]; cbn [map forallb]; auto. destruct (H v) as [-> _]. auto. Qed.

(** Reading rows when blank lines may come before them. *)
Lemma take_tokens_pos_drop n ls : n <> 0 -> take_tokens_pos n ls = take_tokens_pos n (drop_blank ls).
Proof.
  intros Hn. induction ls as [|l ls IH]; [reflexivity|]. cbn [drop_blank]. destruct (blank l) eqn:E; [|reflexivity].
  rewrite <- IH. apply blank_split in E. cbn [take_tokens_pos]. rewrite E. cbn [length].
  destruct (Nat.ltb_spec 0 n); [|lia]. rewrite Nat.sub_0_r. cbn [app].
  destruct (take_tokens_pos n ls) as [[ts r]|]; reflexivity.
Qed.

Lemma take_rows_loose rows rest ls n :
  drop_blank ls = drop_blank (map row_line rows ++ rest) ->
  Forall (fun r => forallb word r = true /\ r <> []) rows -> n = length (concat rows) ->
  exists rest', take_tokens n ls = Some (concat rows, rest') /\ drop_blank rest' = drop_blank rest.
Proof.
  intros Hd H Hn. destruct rows as [|r rows].
  - cbn in Hn. subst n. exists ls. split; [reflexivity|exact Hd].
  - assert (Hpos : n <> 0) by (inversion H as [|? ? [_ Hne] _]; subst; destruct r; [congruence|discriminate]).
    exists (drop_blank rest). split; [|apply drop_blank_idem].
    assert (E : flat_map split_ws (map row_line (r :: rows)) = concat (r :: rows)).
    { clear - H. induction H as [|s rows' [Hw _] H IH]; [reflexivity|]. cbn [map flat_map concat]. rewrite IH.
      unfold row_line at 1. now rewrite split_ws_join. }
    unfold take_tokens. destruct n as [|n]; [congruence|].
    rewrite take_tokens_pos_drop, Hd, <- take_tokens_pos_drop by lia. rewrite Hn, <- E.
    rewrite take_tokens_pos_ok; [reflexivity|discriminate|].
    clear - H. induction H as [|s rows' [Hw Hne] H IH]; constructor; auto. now apply blank_row.
Qed.
