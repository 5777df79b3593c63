(** Lemmas for C49: reading the file that was written. *)
From Verif.Lib Require Import Base Facts Facts2 Text TextFacts Lines LinesFacts BytesFacts.
From Verif.Model Require Import Core Tables Tetgen Abaqus Info Avsucd Tecplot.
From Verif.Spec Require Import Tecplot.
From Verif.Proofs Require Import CoreMisc Tetgen Gmsh Gmsh22 AbaqusFile Mdpa Flac3dSets Su2 Tecplot.
Import Model.Tecplot.

(** ** Characters and words *)
Lemma nat_char c k : is_digit c = false -> c <> "-"%char -> char_in c (str_of_nat k) = false.
Proof. apply char_in_nat. Qed.
Lemma upper_app a b : upper (a ++ b) = (upper a ++ upper b)%string.
Proof. induction a as [|x a IH]; [reflexivity|]. cbn [upper append]. now rewrite IH. Qed.
Lemma upper_digits s : all_digits s = true -> upper s = s.
Proof.
  induction s as [|a s IH]; [reflexivity|]. cbn [all_digits upper]. intros H. apply andb_true_iff in H. destruct H as [Ha Hs]. rewrite IH by auto. f_equal.
  unfold upper_char. destruct (Nat.leb 97 (nat_of_ascii a) && Nat.leb (nat_of_ascii a) 122) eqn:E; [|reflexivity]. exfalso. clear - Ha E.
  apply andb_true_iff in E. destruct E as [E _]. apply Nat.leb_le in E. unfold is_digit in Ha. unfold digit_val in Ha.
  unfold nat_of_ascii in E. destruct ((48 <=? N_of_ascii a)%N && (N_of_ascii a <=? 57)%N) eqn:F; [|discriminate]. apply andb_true_iff in F. destruct F as [_ F]. apply N.leb_le in F. lia.
Qed.
Lemma upper_nat n : upper (str_of_nat n) = str_of_nat n.
Proof. apply upper_digits. apply str_of_N_all_digits. Qed.
Lemma replace_app o n a b : replace_char o n (a ++ b) = (replace_char o n a ++ replace_char o n b)%string.
Proof. induction a as [|x a IH]; [reflexivity|]. cbn [replace_char append]. now rewrite IH. Qed.
Lemma replace_none o n s : char_in o s = false -> replace_char o n s = s.
Proof.
  induction s as [|a s IH]; [reflexivity|]. cbn [char_in replace_char]. intros H. apply orb_false_iff in H. destruct H as [H1 H2]. rewrite IH by auto.
  rewrite Ascii.eqb_sym, H1. reflexivity.
Qed.
Lemma remove_app c a b : remove_char c (a ++ b) = (remove_char c a ++ remove_char c b)%string.
Proof. induction a as [|x a IH]; [reflexivity|]. cbn [remove_char append]. destruct (Ascii.eqb x c); [auto|]. cbn [append]. now rewrite IH. Qed.
Lemma remove_none c s : char_in c s = false -> remove_char c s = s.
Proof.
  induction s as [|a s IH]; [reflexivity|]. cbn [char_in remove_char]. intros H. apply orb_false_iff in H. destruct H as [H1 H2].
  rewrite Ascii.eqb_sym, H1. now rewrite IH.
Qed.
Lemma contains_char c s : contains (String c "") s = char_in c s.
Proof.
  induction s as [|a s IH]; [reflexivity|]. cbn [contains char_in String.prefix]. rewrite IH. destruct (ascii_dec c a) as [->|n].
  - rewrite Ascii.eqb_refl. now destruct s.
  - destruct (Ascii.eqb_spec c a); [contradiction|reflexivity].
Qed.
Lemma prefix_other c p s : char_in c s = false -> String.prefix (String c p) s = false.
Proof.
  destruct s as [|a s]; [reflexivity|]. cbn [char_in String.prefix]. intros H. apply orb_false_iff in H. destruct H as [H _].
  destruct (ascii_dec c a) as [->|]; [|reflexivity]. now rewrite Ascii.eqb_refl in H.
Qed.
Lemma cut_none c sub s : char_in c s = false -> cut_at (String c sub) s = None.
Proof.
  induction s as [|a s IH]; intros H; [reflexivity|]. unfold cut_at; fold cut_at. rewrite prefix_other by auto. cbn [char_in] in H. apply orb_false_iff in H.
  destruct H as [_ H]. now rewrite IH.
Qed.
Lemma cut_skip c sub a s : char_in c a = false -> cut_at (String c sub) (a ++ s) = option_map (fun p => ((a ++ fst p)%string, snd p)) (cut_at (String c sub) s).
Proof.
  induction a as [|x a IH]; intros H; [cbn [append]; destruct (cut_at (String c sub) s) as [[]|]; reflexivity|]. cbn [append]. unfold cut_at at 1; fold cut_at.
  cbn [char_in] in H. apply orb_false_iff in H. destruct H as [H1 H2].
  replace (String.prefix (String c sub) (String x (a ++ s))) with false.
  - rewrite IH by auto. destruct (cut_at (String c sub) s) as [[]|]; reflexivity.
  - cbn [String.prefix]. destruct (ascii_dec c x) as [->|]; [now rewrite Ascii.eqb_refl in H1|reflexivity].
Qed.
Lemma substring_all s : substring 0 (String.length s) s = s.
Proof. induction s as [|a s IH]; [reflexivity|]. cbn [substring String.length]. now rewrite IH. Qed.
Lemma substring_prefix a s : substring (String.length a) (String.length (a ++ s) - String.length a) (a ++ s) = s.
Proof.
  induction a as [|x a IH]; cbn [append String.length]; [rewrite Nat.sub_0_r; apply substring_all|]. cbn [substring]. exact IH.
Qed.
Lemma prefix_refl a s : String.prefix a (a ++ s) = true.
Proof. induction a as [|x a IH]; [now destruct s|]. cbn [append String.prefix]. destruct (ascii_dec x x); [auto|contradiction]. Qed.
Lemma cut_here sub s : cut_at sub (sub ++ s) = Some (""%string, s).
Proof. destruct (sub ++ s)%string eqn:E; unfold cut_at; fold cut_at; rewrite <- E, prefix_refl, substring_prefix; reflexivity. Qed.
Lemma substring_front a c s : substring 0 (String.length a) (a ++ String c s) = a.
Proof. induction a as [|x a IH]; [reflexivity|]. cbn [append substring String.length]. now rewrite IH. Qed.
Lemma length_app a b : String.length (a ++ b) = String.length a + String.length b.
Proof. induction a as [|x a IH]; [reflexivity|]. cbn. now rewrite IH. Qed.
Lemma inner_ok a x y : inner (String x (a ++ String y "")) = a.
Proof.
  unfold inner. cbn [String.length substring]. rewrite length_app. cbn [String.length]. replace (S (String.length a + 1) - 2) with (String.length a) by lia. apply substring_front.
Qed.
Lemma ends_ok c s : ends_with c (s ++ String c "") = true.
Proof.
  induction s as [|a s IH]; [cbn; apply Ascii.eqb_refl|]. cbn [append ends_with]. destruct (s ++ String c "")%string eqn:E; [destruct s; discriminate|exact IH].
Qed.

(** ** Upper case and blanks *)
Lemma upper_space a : is_space (upper_char a) = is_space a.
Proof. destruct a as [[] [] [] [] [] [] [] []]; reflexivity. Qed.
Lemma split_upper_acc s : forall cur, split_ws_acc (upper cur) (upper s) = map upper (split_ws_acc cur s).
Proof.
  induction s as [|a s IH]; intros cur; cbn [upper split_ws_acc].
  - destruct cur; reflexivity.
  - rewrite upper_space. destruct (is_space a).
    + destruct cur as [|x cur]; cbn [upper]; [exact (IH "")|]. cbn [map upper]. f_equal. exact (IH "").
    + rewrite <- IH. f_equal. now rewrite upper_app.
Qed.
Lemma split_upper s : split_ws (upper s) = map upper (split_ws s).
Proof. exact (split_upper_acc s ""). Qed.

(** ** Lines *)
Definition plain_line (l : string) : Prop := strip l = l /\ String.prefix "#" l = false.
Lemma readline_ok l ls : plain_line l -> tec_readline (l :: ls) = (l, ls).
Proof. intros [H1 H2]. cbn [tec_readline]. now rewrite H1, H2. Qed.
Lemma plain_end a w : word w = true -> (match a with String x _ => negb (is_space x) && negb (Ascii.eqb x "#") = true | "" => False end) -> plain_line (a ++ w).
Proof.
  intros Hw Ha. destruct a as [|x a]; [destruct Ha|]. apply andb_true_iff in Ha. destruct Ha as [Hs Hx]. apply negb_true_iff in Hs, Hx. split.
  - unfold strip. cbn [append lstrip]. rewrite Hs. change (String x (a ++ w)) with (String x a ++ w)%string. now apply rstrip_app_word.
  - cbn [append String.prefix]. destruct (ascii_dec "#" x) as [<-|]; [discriminate|reflexivity].
Qed.
Lemma plain_row ts : forallb word ts = true -> Forall (fun t => char_in "#" t = false) ts -> plain_line (row_line ts).
Proof.
  intros H1 H2. split; [now apply strip_row|]. apply prefix_other. apply char_in_join; [discriminate|exact H2].
Qed.

Section Lines.
Context {fl : floats} (tfl : tec_floats fl).

Lemma fl_word (x : fl) : word (ffmt x) = true. Proof. apply tfl. Qed.
Lemma number_row (r : list fl) : plain_line (row_line (map ffmt r)).
Proof.
  apply plain_row; [apply words_floats, tfl|]. apply Forall_map, Forall_forall. intros x _. apply tfl.
Qed.
Lemma data_ok rows rest : Forall (fun r => r <> []) rows -> forall fuel, length rows <= fuel ->
  tec_data (fl := fl) fuel true (Z.of_nat (length (concat rows))) (map (fun r => row_line (map ffmt r)) rows ++ rest) = Ok (rows, rest).
Proof.
  induction 1 as [|r rows Hr H IH]; intros fuel Hf; [destruct fuel; reflexivity|]. destruct fuel as [|fuel]; [cbn in Hf; lia|].
  cbn [map app concat]. unfold tec_data; fold (tec_data (fl := fl)). rewrite app_length.
  assert (Hl : 0 < length r) by (destruct r; [congruence|cbn; lia]).
  replace (Z.of_nat (length r + length (concat rows)) <=? 0)%Z with false by (symmetry; apply Z.leb_gt; lia).
  rewrite readline_ok by apply number_row. rewrite split_ws_join by apply words_floats, tfl.
  destruct (map ffmt r) as [|w ws] eqn:E; [destruct r; [congruence|discriminate]|]. rewrite <- E. rewrite parse_floats_ok by apply tfl. cbn [bind].
  rewrite map_length. replace (Z.of_nat (length r + length (concat rows)) - Z.of_nat (length r))%Z with (Z.of_nat (length (concat rows))) by lia.
  rewrite IH by (cbn in Hf; lia). reflexivity.
Qed.
Lemma cells_ok (rows : list cell) rest : Forall (fun r => r <> []) rows -> forall fuel, length rows <= fuel ->
  tec_cells fuel (Z.of_nat (length rows)) (map (fun c => row_line (map (fun i => str_of_Z (i + 1)) c)) rows ++ rest) = Ok (map (map (fun i => (i + 1)%Z)) rows).
Proof.
  induction 1 as [|r rows Hr H IH]; intros fuel Hf; [destruct fuel; reflexivity|]. destruct fuel as [|fuel]; [cbn in Hf; lia|].
  cbn [map app length]. unfold tec_cells; fold tec_cells.
  replace (Z.of_nat (S (length rows)) <=? 0)%Z with false by (symmetry; apply Z.leb_gt; lia).
  rewrite <- (map_map (fun i => (i + 1)%Z) str_of_Z). rewrite readline_ok.
  2: { apply plain_row; [apply words_ints|]. apply Forall_map, Forall_forall. intros x _. apply char_in_str_of_Z; [reflexivity|discriminate]. }
  rewrite split_ws_join by apply words_ints.
  destruct (map str_of_Z (map (fun i => (i + 1)%Z) r)) as [|w ws] eqn:E; [destruct r; [congruence|discriminate]|]. rewrite <- E. rewrite parse_ints_ok. cbn [bind].
  replace (Z.of_nat (S (length rows)) - 1)%Z with (Z.of_nat (length rows)) by lia.
  rewrite IH by (cbn in Hf; lia). reflexivity.
Qed.
Lemma chunks_nonempty {A} n (l : list A) : 0 < n -> Forall (fun r => r <> []) (chunks n l).
Proof.
  intros Hn. unfold chunks. generalize (length l) at 1. intros f. revert l. induction f as [|f IH]; intros l; [constructor|]. cbn [chunks_fuel].
  destruct l as [|x l]; [constructor|]. constructor; [destruct n; [lia|discriminate]|apply IH].
Qed.
(** All tables. *)
Lemma tables_rows (cols : list (string * list fl)) :
  flat_map (fun nv => tec_table (snd nv)) cols = map (fun r => row_line (map ffmt r)) (flat_map (fun nv => chunks 20 (snd nv)) cols) /\
  Forall (fun r : list fl => r <> []) (flat_map (fun nv => chunks 20 (snd nv)) cols) /\ concat (flat_map (fun nv => chunks 20 (snd nv)) cols) = concat (map snd cols).
Proof.
  induction cols as [|[k v] cols (E1 & E2 & E3)]; [repeat split; constructor|]. cbn [flat_map map concat snd]. rewrite E1, map_app, concat_app, E3. split; [reflexivity|].
  split; [apply Forall_app; split; [apply chunks_nonempty; lia|exact E2]|]. f_equal. apply chunks_back. lia.
Qed.
End Lines.

(** ** The names *)
Lemma quoted_word k : word k = true -> word (quoted k) = true.
Proof.
  intros H. apply word_no_space in H. destruct H as [H _]. unfold quoted. cbn [append word no_space]. change (is_space (ascii_of_nat 34)) with false. cbn [negb andb].
  induction k as [|a k IH]; [reflexivity|]. cbn [append no_space] in *. apply andb_true_iff in H. destruct H as [Ha Hk]. rewrite Ha. auto.
Qed.
Lemma names_text ks : Forall tec_name ks -> split_ws (replace_char "," " " (join ", " (map quoted ks))) = map quoted ks.
Proof.
  assert (Hq : forall k, tec_name k -> word (quoted k) = true /\ replace_char "," " " (quoted k) = quoted k).
  { intros k (_ & Hw & Hc & _). split; [now apply quoted_word|]. apply replace_none. unfold quoted. rewrite char_in_app. cbn [char_in]. now rewrite Hc. }
  induction ks as [|k ks IH]; intros H; [reflexivity|]. inversion H as [|? ? Hk Hks]; subst. destruct (Hq k Hk) as [Hw Hr]. destruct ks as [|k2 ks].
  - cbn [map join String.concat]. rewrite Hr. now apply split_ws_word_end.
  - cbn [map] in *. rewrite join_cons. rewrite !replace_app, Hr. change (replace_char "," " " ", ") with "  ". specialize (IH Hks).
    change (quoted k ++ "  " ++ replace_char "," " " (join ", " (quoted k2 :: map quoted ks)))%string with (quoted k ++ String " " (String " " (replace_char "," " " (join ", " (quoted k2 :: map quoted ks)))))%string.
    rewrite split_ws_word_space by (auto || reflexivity). rewrite split_ws_space by reflexivity. now rewrite IH.
Qed.
Lemma names_back ks : Forall tec_name ks -> variable_names (map quoted ks) = Ok ks.
Proof.
  induction 1 as [|k ks (Hne & Hw & _ & _ & Hq) H IH]; [reflexivity|]. cbn [map variable_names].
  assert (E : contains quote (quoted k) && negb (String.prefix quote (quoted k) && ends_with (ascii_of_nat 34) (quoted k)) = false).
  { replace (String.prefix quote (quoted k)) with true by (symmetry; unfold quoted; cbn [append]; apply (prefix_refl quote)).
    replace (ends_with (ascii_of_nat 34) (quoted k)) with true by (symmetry; unfold quoted; apply ends_ok). apply andb_false_r. }
  rewrite E, IH. cbn [bind]. do 2 f_equal. unfold quoted. rewrite remove_app. change (remove_char (ascii_of_nat 34) (String (ascii_of_nat 34) "")) with "".
  rewrite str_app_nil_r. change (remove_char (ascii_of_nat 34) (String (ascii_of_nat 34) k)) with (remove_char (ascii_of_nat 34) k). now apply remove_none.
Qed.
Lemma join_eq ks : Forall tec_name ks -> char_in "=" (join ", " (map quoted ks)) = false.
Proof.
  induction 1 as [|k ks (_ & _ & _ & He & _) H IH]; [reflexivity|]. assert (Eq : char_in "=" (quoted k) = false) by (unfold quoted; rewrite char_in_app; cbn [char_in]; now rewrite He).
  destruct ks as [|k2 ks]; [exact Eq|]. cbn [map] in *. rewrite join_cons, !char_in_app, Eq, IH. reflexivity.
Qed.
Lemma variables_ok ks : Forall tec_name ks -> In "X" ks -> In "Y" ks ->
  read_variables ("VARIABLES = " ++ join ", " (map quoted ks)) = Ok ks.
Proof.
  intros H HX HY. unfold read_variables.
  change ("VARIABLES = " ++ join ", " (map quoted ks))%string with ("VARIABLES " ++ String "=" (String " " (join ", " (map quoted ks))))%string.
  rewrite split_char_app by reflexivity. rewrite split_char_single by (cbn [char_in]; rewrite join_eq by auto; reflexivity). cbn [nth_error of_option bind].
  cbn [replace_char]. change (if Ascii.eqb " " "," then " " else " ")%char with " "%char. rewrite split_ws_space by reflexivity. rewrite names_text, names_back by auto. cbn [bind].
  assert (S : forall x, In x ks -> smem x ks = true). { intros x Hx. unfold smem. apply existsb_exists. exists x. split; [auto|apply String.eqb_refl]. }
  rewrite (S "X" HX), (S "Y" HY). reflexivity.
Qed.
Lemma join_end ks : ks <> [] -> exists s, join ", " (map quoted ks) = (s ++ String (ascii_of_nat 34) "")%string.
Proof.
  induction ks as [|k ks IH]; [congruence|]. intros _. destruct ks as [|k2 ks]; [exists (String (ascii_of_nat 34) k); reflexivity|].
  destruct IH as (s & E); [discriminate|]. cbn [map] in *. rewrite join_cons, E. exists (quoted k ++ ", " ++ s)%string. now rewrite !str_app_assoc.
Qed.

(** ** The zone record *)
Definition zone_line (nn nc : nat) : string := ("ZONE NODES = " ++ str_of_nat nn ++ ", ELEMENTS = " ++ str_of_nat nc ++ ",")%string.
Definition pack_line (z c : string) : string := ("DATAPACKING = BLOCK, ZONETYPE = " ++ z ++ c)%string.
Definition loc_line (a b : nat) : string :=
  ("VARLOCATION = ([" ++ (if Nat.eqb a b then str_of_nat a else str_of_nat a ++ "-" ++ str_of_nat b) ++ "] = CELLCENTERED)")%string.
Definition zone_dict (nn nc : nat) (z : string) : dict string :=
  [("NODES", str_of_nat nn); ("ELEMENTS", str_of_nat nc); ("DATAPACKING", "BLOCK"); ("ZONETYPE", z)].
Definition a_zone (z : string) : Prop := In z ["FELINESEG"; "FETRIANGLE"; "FEQUADRILATERAL"; "FETETRAHEDRON"; "FEBRICK"].

Local Arguments str_of_nat : simpl never.
Local Arguments zone_pairs : simpl never.
Local Arguments split_ws : simpl never.

Lemma zone_words nn nc z e : a_zone z -> split_ws e = [] ->
  split_ws ("NODES = " ++ str_of_nat nn ++ "  ELEMENTS = " ++ str_of_nat nc ++ "  DATAPACKING = BLOCK  ZONETYPE = " ++ z ++ " " ++ e)%string =
  ["NODES"; "="; str_of_nat nn; "ELEMENTS"; "="; str_of_nat nc; "DATAPACKING"; "="; "BLOCK"; "ZONETYPE"; "="; z].
Proof.
  intros Hz He. set (n := str_of_nat nn). set (c := str_of_nat nc). assert (Wn : word n = true) by apply word_str_of_nat. assert (Wc : word c = true) by apply word_str_of_nat.
  assert (Wz : word z = true) by (clear - Hz; cbn in Hz; repeat (destruct Hz as [<-|Hz]; [reflexivity|]); destruct Hz).
  transitivity (split_ws ("NODES" ++ String " " ("=" ++ String " " (n ++ String " " (String " " ("ELEMENTS" ++ String " " ("=" ++ String " " (c ++ String " " (String " " ("DATAPACKING" ++ String " " ("=" ++ String " " ("BLOCK" ++ String " " (String " " ("ZONETYPE" ++ String " " ("=" ++ String " " (z ++ String " " e)))))))))))))))%string); [reflexivity|].
  repeat first [rewrite split_ws_word_space by (reflexivity || assumption) | rewrite split_ws_space by reflexivity]. now rewrite He.
Qed.
Lemma zone_pairs_ok nn nc z d : a_zone z -> (d = [] \/ exists s, d = [("VARLOCATION", s)]) ->
  zone_pairs (filter (fun w => negb (String.eqb w "=")) ["NODES"; "="; str_of_nat nn; "ELEMENTS"; "="; str_of_nat nc; "DATAPACKING"; "="; "BLOCK"; "ZONETYPE"; "="; z]) d
  = Ok (d ++ zone_dict nn nc z).
Proof.
  intros Hz Hd. set (n := str_of_nat nn). set (c := str_of_nat nc).
  assert (Ee : forall k, String.eqb (str_of_nat k) "=" = false /\ remove_char "=" (str_of_nat k) = str_of_nat k /\ parse_Z (str_of_nat k) = Some (Z.of_nat k)).
  { intros k. assert (Hc : char_in "=" (str_of_nat k) = false) by (apply char_in_nat; [reflexivity|discriminate]). split; [|split].
    - destruct (String.eqb_spec (str_of_nat k) "="); [|reflexivity]. rewrite e in Hc. discriminate.
    - now apply remove_none.
    - rewrite str_of_nat_Z. apply parse_Z_str_of_Z. }
  destruct (Ee nn) as (En & Rn & Pn), (Ee nc) as (Ec & Rc & Pc). fold n in En, Rn, Pn. fold c in Ec, Rc, Pc. clear Ee.
  assert (Ez : String.eqb z "=" = false /\ remove_char "=" z = z) by (clear - Hz; cbn in Hz; repeat (destruct Hz as [<-|Hz]; [split; reflexivity|]); destruct Hz). destruct Ez as [Ez Rz].
  cbn [filter]. rewrite En, Ec, Ez. change (String.eqb "NODES" "=") with false. change (String.eqb "=" "=") with true. change (String.eqb "ELEMENTS" "=") with false.
  change (String.eqb "DATAPACKING" "=") with false. change (String.eqb "BLOCK" "=") with false. change (String.eqb "ZONETYPE" "=") with false. cbn [negb].
  unfold zone_pairs; fold zone_pairs.
  change (contains "=" "NODES") with false. change (contains "=" "ELEMENTS") with false. change (contains "=" "DATAPACKING") with false. change (contains "=" "ZONETYPE") with false. cbv iota.
  rewrite Rn, Rc, Rz. change (remove_char "=" "BLOCK") with "BLOCK". unfold zone_set.
  change (dget "NODES" zone_keys) with (Some true). change (dget "ELEMENTS" zone_keys) with (Some true). change (dget "DATAPACKING" zone_keys) with (Some false). change (dget "ZONETYPE" zone_keys) with (Some false).
  cbn [of_option bind]. rewrite Pn, Pc. cbn [of_option bind]. destruct Hd as [-> | (s & ->)]; reflexivity.
Qed.

Lemma zone_chars c nn nc z : a_zone z -> c = ascii_of_nat 34 \/ c = "V"%char -> char_in c ("NODES = " ++ str_of_nat nn ++ ", ELEMENTS = " ++ str_of_nat nc ++ ", DATAPACKING = BLOCK, ZONETYPE = " ++ z)%string = false.
Proof.
  intros Hz Hc. assert (Hn : forall k, char_in c (str_of_nat k) = false) by (intros k; apply char_in_nat; destruct Hc as [-> | ->]; (reflexivity || discriminate)).
  assert (Ez : char_in c z = false) by (clear - Hz Hc; cbn in Hz; destruct Hc as [-> | ->]; repeat (destruct Hz as [<-|Hz]; [reflexivity|]); destruct Hz).
  rewrite !char_in_app, !Hn, Ez. destruct Hc as [-> | ->]; reflexivity.
Qed.
Lemma zone_replace nn nc z e : a_zone z ->
  replace_char "," " " ("NODES = " ++ str_of_nat nn ++ ", ELEMENTS = " ++ str_of_nat nc ++ ", DATAPACKING = BLOCK, ZONETYPE = " ++ z ++ e)%string =
  ("NODES = " ++ str_of_nat nn ++ "  ELEMENTS = " ++ str_of_nat nc ++ "  DATAPACKING = BLOCK  ZONETYPE = " ++ z ++ replace_char "," " " e)%string.
Proof.
  intros Hz. assert (Hn : forall k, replace_char "," " " (str_of_nat k) = str_of_nat k) by (intros k; apply replace_none, char_in_nat; (reflexivity || discriminate)).
  assert (Ez : replace_char "," " " z = z) by (clear - Hz; cbn in Hz; repeat (destruct Hz as [<-|Hz]; [reflexivity|]); destruct Hz).
  rewrite !replace_app, !Hn, Ez. reflexivity.
Qed.

Lemma zone_plain nn nc z : a_zone z -> read_zone (join " " [zone_line nn nc; pack_line z ""]) = Ok (zone_dict nn nc z).
Proof.
  intros Hz. set (body := ("NODES = " ++ str_of_nat nn ++ ", ELEMENTS = " ++ str_of_nat nc ++ ", DATAPACKING = BLOCK, ZONETYPE = " ++ z)%string).
  assert (E : join " " [zone_line nn nc; pack_line z ""] = ("ZONE " ++ body)%string).
  { unfold body, zone_line, pack_line, join. cbn [String.concat]. rewrite !str_app_assoc, str_app_nil_r. reflexivity. }
  rewrite E. unfold read_zone. assert (Es : substring 5 (String.length ("ZONE " ++ body) - 5) ("ZONE " ++ body) = body) by exact (substring_prefix "ZONE " body).
  cbv zeta. rewrite !Es. clear Es.
  change quote with (String (ascii_of_nat 34) ""). rewrite contains_char. unfold body. rewrite zone_chars by auto. change "VARLOCATION" with (String "V" "ARLOCATION"). rewrite cut_none by (apply zone_chars; auto).
  cbn [bind fst snd]. rewrite <- (str_app_nil_r z) at 1. rewrite zone_replace by auto. change (replace_char "," " " "") with "".
  assert (W : split_ws ("NODES = " ++ str_of_nat nn ++ "  ELEMENTS = " ++ str_of_nat nc ++ "  DATAPACKING = BLOCK  ZONETYPE = " ++ z ++ "")%string =
    ["NODES"; "="; str_of_nat nn; "ELEMENTS"; "="; str_of_nat nc; "DATAPACKING"; "="; "BLOCK"; "ZONETYPE"; "="; z]).
  { set (n := str_of_nat nn). set (c := str_of_nat nc). assert (Wn : word n = true) by apply word_str_of_nat. assert (Wc : word c = true) by apply word_str_of_nat.
    assert (Wz : word z = true) by (clear - Hz; cbn in Hz; repeat (destruct Hz as [<-|Hz]; [reflexivity|]); destruct Hz). rewrite str_app_nil_r.
    transitivity (split_ws ("NODES" ++ String " " ("=" ++ String " " (n ++ String " " (String " " ("ELEMENTS" ++ String " " ("=" ++ String " " (c ++ String " " (String " " ("DATAPACKING" ++ String " " ("=" ++ String " " ("BLOCK" ++ String " " (String " " ("ZONETYPE" ++ String " " ("=" ++ String " " z))))))))))))))%string); [reflexivity|].
    repeat first [rewrite split_ws_word_space by (reflexivity || assumption) | rewrite split_ws_space by reflexivity]. now rewrite split_ws_word_end. }
  rewrite W. exact (zone_pairs_ok nn nc z [] Hz (or_introl eq_refl)).
Qed.
Lemma zone_located nn nc z a b : a_zone z ->
  read_zone (join " " [zone_line nn nc; pack_line z ","; loc_line a b]) =
  Ok (("VARLOCATION", "[" ++ (if Nat.eqb a b then str_of_nat a else str_of_nat a ++ "-" ++ str_of_nat b) ++ "]=CELLCENTERED")%string :: zone_dict nn nc z).
Proof.
  intros Hz. set (body := ("NODES = " ++ str_of_nat nn ++ ", ELEMENTS = " ++ str_of_nat nc ++ ", DATAPACKING = BLOCK, ZONETYPE = " ++ z)%string).
  set (r := if Nat.eqb a b then str_of_nat a else (str_of_nat a ++ "-" ++ str_of_nat b)%string).
  assert (Hr : forall c, is_digit c = false -> c <> "-"%char -> char_in c r = false).
  { intros c H1 H2. unfold r. destruct (Nat.eqb a b); rewrite ?char_in_app, !char_in_nat by auto; [reflexivity|]. cbn [char_in orb]. rewrite orb_false_r.
    destruct (Ascii.eqb_spec c "-"); [contradiction|reflexivity]. }
  assert (E : join " " [zone_line nn nc; pack_line z ","; loc_line a b] = ("ZONE " ++ body ++ ", " ++ "VARLOCATION" ++ " = " ++ "(" ++ ("[" ++ r ++ "] = CELLCENTERED") ++ ")" ++ "")%string).
  { unfold body, zone_line, pack_line, loc_line, join. fold r. cbn [String.concat]. rewrite !str_app_assoc. reflexivity. }
  rewrite E. unfold read_zone. set (whole := (body ++ ", " ++ _)%string) in |- *. assert (Es : substring 5 (String.length ("ZONE " ++ whole) - 5) ("ZONE " ++ whole) = whole) by exact (substring_prefix "ZONE " whole).
  cbv zeta. rewrite !Es. clear Es. unfold whole.
  change quote with (String (ascii_of_nat 34) ""). rewrite contains_char. rewrite !char_in_app. unfold body at 1. rewrite zone_chars by auto. rewrite Hr by (reflexivity || discriminate).
  change (_ || _) with false. cbv iota.
  replace (body ++ ", " ++ "VARLOCATION" ++ " = " ++ "(" ++ ("[" ++ r ++ "] = CELLCENTERED") ++ ")" ++ "")%string with ((body ++ ", ") ++ "VARLOCATION" ++ " = " ++ "(" ++ ("[" ++ r ++ "] = CELLCENTERED") ++ ")" ++ "")%string by now rewrite str_app_assoc.
  change "VARLOCATION" with (String "V" "ARLOCATION") at 1. rewrite cut_skip by (rewrite char_in_app; unfold body; rewrite zone_chars by auto; reflexivity).
  change (String "V" "ARLOCATION") with "VARLOCATION". rewrite cut_here. cbn [option_map fst snd].
  change "(" with (String "(" "") at 1. rewrite cut_skip by reflexivity. change (String "(" "") with "(". rewrite cut_here. cbn [option_map fst snd].
  change ")" with (String ")" "") at 1. rewrite cut_skip by (rewrite !char_in_app, Hr by (reflexivity || discriminate); reflexivity). change (String ")" "") with ")". rewrite cut_here. cbn [option_map fst snd bind].
  rewrite !str_app_nil_r. unfold body. rewrite !str_app_assoc. rewrite zone_replace by auto. change (replace_char "," " " ", ") with (" " ++ " ")%string. rewrite zone_words by (auto || reflexivity).
  rewrite zone_pairs_ok by (auto || right; eexists; reflexivity). cbn [app]. do 3 f_equal. rewrite !remove_app. rewrite (remove_none " " r) by (apply Hr; (reflexivity || discriminate)). reflexivity.
Qed.

(** ** The locations of the variables *)
Lemma char_in_nat_dash k : char_in "-" (str_of_nat k) = false.
Proof. apply all_digits_char; [apply str_of_N_all_digits|reflexivity]. Qed.
Lemma mark_range p : forall n j, mark (map (fun k => Z.of_nat (p + k)) (seq j n)) (repeat false p ++ repeat true j ++ repeat false n) = Ok (repeat false p ++ repeat true (j + n)).
Proof.
  induction n as [|n IH]; intros j; [cbn; now rewrite app_nil_r, Nat.add_0_r|]. cbn [seq map mark].
  assert (E : np_index (length (repeat false p ++ repeat true j ++ repeat false (S n))) (Z.of_nat (p + j)) = Ok (p + j)).
  { unfold np_index. rewrite !app_length, !repeat_length. rewrite (proj2 (Z.leb_le _ _)) by lia. rewrite (proj2 (Z.ltb_lt _ _)) by lia. cbn [andb]. now rewrite Nat2Z.id. }
  rewrite E. cbn [bind].
  assert (U : upd (p + j) true (repeat false p ++ repeat true j ++ repeat false (S n)) = repeat false p ++ repeat true (S j) ++ repeat false n).
  { change (repeat false (S n)) with (false :: repeat false n). rewrite app_assoc.
    pose proof (upd_mid (repeat false p ++ repeat true j) false true (repeat false n)) as M. rewrite app_length, !repeat_length in M. rewrite M.
    replace (S j) with (j + 1) by lia. rewrite repeat_app. now rewrite <- !app_assoc. }
  rewrite U. rewrite IH. now rewrite Nat.add_succ_r.
Qed.
Lemma fezone_plain nn nc z nv : parse_fezone (zone_dict nn nc z) nv = Ok (Z.of_nat nn, Z.of_nat nc, "FEBLOCK", z, repeat false nv).
Proof.
  unfold parse_fezone, zone_count, zone_dict. set (n := str_of_nat nn). set (c := str_of_nat nc). cbn [dget String.eqb Ascii.eqb Bool.eqb of_option bind fst snd].
  assert (P : forall k, parse_Z (str_of_nat k) = Some (Z.of_nat k)) by (intros k; rewrite str_of_nat_Z; apply parse_Z_str_of_Z). unfold n, c. rewrite !P. reflexivity.
Qed.
Lemma fezone_located nn nc z p q : 0 < q ->
  parse_fezone (("VARLOCATION", "[" ++ (if Nat.eqb (S p) (p + q) then str_of_nat (S p) else str_of_nat (S p) ++ "-" ++ str_of_nat (p + q)) ++ "]=CELLCENTERED")%string :: zone_dict nn nc z) (p + q)
  = Ok (Z.of_nat nn, Z.of_nat nc, "FEBLOCK", z, repeat false p ++ repeat true q).
Proof.
  intros Hq. set (r := if Nat.eqb (S p) (p + q) then _ else _).
  assert (P : forall k, parse_Z (str_of_nat k) = Some (Z.of_nat k)) by (intros k; rewrite str_of_nat_Z; apply parse_Z_str_of_Z).
  assert (Hr : forall c, is_digit c = false -> c <> "-"%char -> char_in c r = false).
  { intros c H1 H2. unfold r. destruct (Nat.eqb (S p) (p + q)); rewrite ?char_in_app, !char_in_nat by auto; [reflexivity|]. cbn [char_in orb]. rewrite orb_false_r.
    destruct (Ascii.eqb_spec c "-"); [contradiction|reflexivity]. }
  assert (M : mark_all (split_char "," ("[" ++ r ++ "]=CELLCENTERED")) (repeat false (p + q)) = Ok (repeat false p ++ repeat true q)).
  { rewrite split_char_single by (rewrite !char_in_app, Hr by (reflexivity || discriminate); reflexivity). cbn [mark_all]. unfold mark_location.
    replace ("[" ++ r ++ "]=CELLCENTERED")%string with (("[" ++ r ++ "]") ++ String "=" "CELLCENTERED")%string by now rewrite !str_app_assoc.
    rewrite split_char_app by (rewrite !char_in_app, Hr by (reflexivity || discriminate); reflexivity). rewrite split_char_single by reflexivity.
    change (String.eqb (strip "CELLCENTERED") "CELLCENTERED") with true. cbv iota. change ("[" ++ r ++ "]")%string with (String "[" (r ++ String "]" "")). rewrite inner_ok.
    pose proof (mark_range p q 0) as MR. cbn [repeat app Nat.add] in MR. rewrite <- repeat_app in MR.
    unfold r. destruct (Nat.eqb_spec (S p) (p + q)) as [e|e].
    - assert (q = 1) as -> by lia. rewrite split_char_single by (apply char_in_nat_dash). rewrite P. cbn [of_option bind]. cbn [seq map] in MR. rewrite Nat.add_0_r in MR.
      replace (Z.of_nat (S p) - 1)%Z with (Z.of_nat p) by lia. rewrite MR. reflexivity.
    - change (str_of_nat (S p) ++ "-" ++ str_of_nat (p + q))%string with (str_of_nat (S p) ++ String "-" (str_of_nat (p + q)))%string.
      rewrite split_char_app by apply char_in_nat_dash. rewrite split_char_single by apply char_in_nat_dash. rewrite !P. cbn [of_option bind].
      replace (Z.to_nat (Z.of_nat (p + q) - Z.of_nat (S p) + 1)) with q by lia.
      rewrite (map_ext (fun k => (Z.of_nat (S p) - 1 + Z.of_nat k)%Z) (fun k => Z.of_nat (p + k))) by (intros; lia). rewrite MR. reflexivity. }
  unfold parse_fezone, zone_count, zone_dict. set (text := ("[" ++ r ++ "]=CELLCENTERED")%string) in *. clearbody text. set (n := str_of_nat nn). set (c := str_of_nat nc).
  cbn [dget String.eqb Ascii.eqb Bool.eqb of_option bind fst snd]. unfold n, c. rewrite !P. cbn [of_option bind]. change (String.eqb ("FE" ++ "BLOCK") "FEBLOCK") with true. cbv iota. rewrite M. reflexivity.
Qed.

(** ** From the columns to the mesh *)
Lemma axis_none k : char_in "_" k = true -> axis k = false.
Proof.
  intros H. unfold axis, smem. cbn [existsb]. repeat match goal with |- context[String.eqb ?a ?b] => destruct (String.eqb_spec a b) as [->|_]; [discriminate H|] end. reflexivity.
Qed.
Lemma columns_axis {fl : floats} k (a : shape * list (list fl)) : Forall (fun kv => axis (fst kv) = false) (columns_of k a).
Proof.
  unfold columns_of. destruct (axis k) eqn:E; [constructor|]. destruct (fst a); [|constructor; [exact E|constructor]]. apply Forall_map, Forall_forall. intros i _. cbn [fst].
  apply axis_none. rewrite !char_in_app. cbn [char_in]. apply orb_true_r.
Qed.
Lemma axis_free (P : string -> Prop) l : Forall (fun k => axis k = false) l -> (forall k, In k l -> k <> "X" /\ k <> "Y" /\ k <> "Z" /\ k <> "x" /\ k <> "y" /\ k <> "z").
Proof. rewrite Forall_forall. intros H k Hk. specialize (H k Hk). repeat split; intros ->; discriminate. Qed.

Lemma NoDup_join {A} (a b : list A) : NoDup a /\ NoDup b /\ (forall x, In x a -> In x b -> False) -> NoDup (a ++ b).
Proof.
  intros (Ha & Hb & H). induction Ha as [|x a Hx Ha IH]; [exact Hb|]. cbn [app]. constructor.
  - rewrite in_app_iff. intros [?|?]; [contradiction|]. apply (H x); [now left|auto].
  - apply IH. intros y Hy. apply H. now right.
Qed.
Lemma NoDup_parts {A} (a b : list A) : NoDup (a ++ b) -> NoDup a /\ NoDup b.
Proof.
  induction a as [|x a IH]; intros H; [split; [constructor|exact H]|]. cbn [app] in H. inversion H as [|? ? Hx Hn]; subst. destruct (IH Hn). split; [|auto]. constructor; [|auto].
  intros Hi. apply Hx, in_or_app. now left.
Qed.
Section Mesh.
Context {fl : floats}.
Lemma dget_here k (v : list fl) d : dget k ((k, v) :: d) = Some v.
Proof. cbn [dget]. now rewrite String.eqb_refl. Qed.
Lemma dget_all (L : dict (list fl)) : NoDup (map fst L) -> forall flags : list bool, length flags = length L ->
  mapM (fun cv => do x <- of_option KeyError (dget (snd cv) L); Ok (fst cv, (snd cv, x))) (combine flags (map fst L)) = Ok (combine flags L).
Proof.
  intros Hn flags Hl. assert (G : forall (L' : dict (list fl)) (flags : list bool), length flags = length L' -> (forall kv, In kv L' -> In kv L) ->
    mapM (fun cv => do x <- of_option KeyError (dget (snd cv) L); Ok (fst cv, (snd cv, x))) (combine flags (map fst L')) = Ok (combine flags L')).
  { clear flags Hl. induction L' as [|[k v] L' IH]; intros [|f flags] Hl Hi; try discriminate; [reflexivity|]. cbn [map combine mapM fst snd].
    rewrite (In_dget k v L Hn) by (apply Hi; now left). cbn [of_option bind]. rewrite IH; [reflexivity|now injection Hl|]. intros; apply Hi; now right. }
  now apply G.
Qed.
Lemma combine_parts {A B} (l : list (A * B)) : combine (map fst l) (map snd l) = l.
Proof. induction l as [|[a b] l IH]; [reflexivity|]. cbn. now rewrite IH. Qed.
Lemma flags_split (P Q : dict (list fl)) b :
  map snd (filter (fun x => Bool.eqb (fst x) b) (combine (repeat false (length P) ++ repeat true (length Q)) (P ++ Q))) = if b then Q else P.
Proof.
  assert (E : forall f (L : dict (list fl)), filter (fun x => Bool.eqb (fst x) b) (combine (repeat f (length L)) L) = if Bool.eqb f b then combine (repeat f (length L)) L else []).
  { intros f. induction L as [|x L IH]; [now destruct (Bool.eqb f b)|]. cbn [length repeat combine filter fst]. rewrite IH. destruct (Bool.eqb f b); reflexivity. }
  assert (S : forall (f : bool) (L : dict (list fl)), map snd (combine (repeat f (length L)) L) = L).
  { intros f. induction L as [|x L IH]; [reflexivity|]. cbn [length repeat combine map snd]. now rewrite IH. }
  rewrite combine_app by now rewrite repeat_length. rewrite filter_app, map_app, !E. destruct b; cbn [Bool.eqb]; rewrite S; [reflexivity|apply app_nil_r].
Qed.
Lemma dget_absent k (d : dict (list fl)) : ~ In k (map fst d) -> dget k d = None.
Proof. intros H. induction d as [|[k' v] d IH]; [reflexivity|]. cbn [dget map fst In] in *. destruct (String.eqb_spec k k'); [subst; tauto|apply IH; tauto]. Qed.
Lemma dmem_absent k (d : dict (list fl)) : ~ In k (map fst d) -> dmem k d = false.
Proof. intros H. unfold dmem. now rewrite dget_absent. Qed.
Lemma even_all {A} k (rows : list (list A)) : Forall (fun r => length r = k) rows -> even rows = true.
Proof.
  intros H. unfold even. apply forallb_forall. intros r Hr. apply Nat.eqb_eq. destruct rows as [|r0 rows]; [destruct Hr|]. rewrite Forall_forall in H. rewrite (H r Hr). symmetry. apply H. now left.
Qed.
Lemma points_2 (pts : list (list fl)) : Forall (fun p => length p = 2) pts ->
  map (fun i => [nth i (column 0 pts) fzero; nth i (column 1 pts) fzero] ++ []) (seq 0 (length (column 0 pts))) = pts.
Proof.
  intros H. unfold column. rewrite map_length. induction H as [|p pts Hp H IH]; [reflexivity|]. cbn [length seq map nth]. f_equal.
  - destruct p as [|x [|y [|]]]; try discriminate. reflexivity.
  - rewrite <- seq_shift, map_map. exact IH.
Qed.
Lemma points_3 (pts : list (list fl)) : Forall (fun p => length p = 3) pts ->
  map (fun i => [nth i (column 0 pts) fzero; nth i (column 1 pts) fzero] ++ [nth i (column 2 pts) fzero]) (seq 0 (length (column 0 pts))) = pts.
Proof.
  intros H. unfold column. rewrite map_length. induction H as [|p pts Hp H IH]; [reflexivity|]. cbn [length seq map nth]. f_equal.
  - destruct p as [|x [|y [|z [|]]]]; try discriminate. reflexivity.
  - rewrite <- seq_shift, map_map. exact IH.
Qed.

Lemma mesh_ok z t pts d (xyz P Q : dict (list fl)) k (rows : list cell) :
  dget z tecplot_to_meshio_type = Some t -> (d = 2 \/ d = 3) -> Forall (fun p => length p = d) pts ->
  xyz = [("X", column 0 pts); ("Y", column 1 pts)] ++ (if Nat.eqb d 3 then [("Z", column 2 pts)] else []) ->
  NoDup (map fst (P ++ Q)) -> Forall (fun kv => axis (fst kv) = false) (P ++ Q) ->
  Forall (fun kv => length (snd kv) = length pts) P -> Forall (fun kv => length (snd kv) = length rows) Q ->
  rows <> [] -> Forall (fun r => length r = k) rows ->
  tec_mesh_of z (map fst ((xyz ++ P) ++ Q)) (repeat false (length (xyz ++ P)) ++ repeat true (length Q)) (map snd ((xyz ++ P) ++ Q)) (map (map (fun i => (i + 1)%Z)) rows)
  = Ok (TecOut pts (Block t rows) P Q).
Proof.
  intros Hz Hd Hp Exyz Hn Ha HP HQ Hr Hk.
  assert (Hax : forall k, In k (map fst (P ++ Q)) -> k <> "X" /\ k <> "Y" /\ k <> "Z" /\ k <> "x" /\ k <> "y" /\ k <> "z").
  { apply (axis_free (fun _ => True)). now apply Forall_map. }
  assert (Hnx : NoDup (map fst ((xyz ++ P) ++ Q))).
  { rewrite <- app_assoc, map_app. apply NoDup_join. split; [subst xyz; destruct (Nat.eqb d 3); cbn; repeat constructor; cbn; intuition discriminate|]. split; [exact Hn|].
    intros a H1 H2. apply Hax in H2. subst xyz. rewrite map_app in H1. cbn [map fst app] in H1. destruct (Nat.eqb d 3); cbn [map fst app In] in H1; intuition congruence. }
  unfold tec_mesh_of. rewrite combine_parts. rewrite fold_dset_new by (auto; reflexivity). cbn [app].
  rewrite dget_all by (auto; now rewrite !app_length, !repeat_length). cbn [bind]. rewrite !flags_split.
  assert (NP : NoDup (map fst (xyz ++ P))) by (rewrite map_app in Hnx; apply NoDup_parts in Hnx; apply Hnx).
  assert (NQ : NoDup (map fst Q)) by (rewrite map_app in Hnx; apply NoDup_parts in Hnx; apply Hnx).
  rewrite (fold_dset_new (xyz ++ P) [] NP (fun _ _ => eq_refl)), (fold_dset_new Q [] NQ (fun _ _ => eq_refl)). cbn [app].
  assert (NoAx : forall k, In k ["X"; "Y"; "Z"; "x"; "y"; "z"] -> ~ In k (map fst P)).
  { intros a H1 H2. assert (H3 : In a (map fst (P ++ Q))) by (rewrite map_app; apply in_or_app; now left). apply Hax in H3. cbn in H1. intuition congruence. }
  assert (OkQ : forallb (fun kv => Nat.eqb (length (snd kv)) (length (map (map (fun i => (i + 1)%Z)) rows))) Q = true).
  { apply forallb_forall. intros kv Hkv. rewrite map_length. apply Nat.eqb_eq. rewrite Forall_forall in HQ. auto. }
  assert (OkP : forallb (fun kv => Nat.eqb (length (snd kv)) (length (column 0 pts))) (xyz ++ P) = true).
  { apply forallb_forall. intros kv Hkv. unfold column at 1. rewrite map_length. apply Nat.eqb_eq. apply in_app_or in Hkv. destruct Hkv as [Hkv|Hkv]; [|rewrite Forall_forall in HP; auto].
    subst xyz. apply in_app_or in Hkv. destruct Hkv as [Hkv|Hkv]; [cbn in Hkv; destruct Hkv as [<-|[<-|[]]]; cbn [snd]; apply map_length|].
    destruct (Nat.eqb d 3); [|destruct Hkv]. destruct Hkv as [<-|[]]. apply map_length. }
  assert (Ev : (match map (map (fun i => (i + 1)%Z)) rows with [] => false | _ => even (map (map (fun i => (i + 1)%Z)) rows) end) = true).
  { rewrite (even_all k). - destruct rows; [congruence|reflexivity]. - apply Forall_map. eapply Forall_impl; [|exact Hk]. intros r Hl. now rewrite map_length. }
  assert (Rows : map (map (fun i => (i - 1)%Z)) (map (map (fun i => (i + 1)%Z)) rows) = rows).
  { rewrite map_map. apply map_id_in. intros r _. rewrite map_map. apply map_id_in. intros; lia. }
  rewrite Hz. destruct Hd as [-> | ->]; subst xyz; cbn [Nat.eqb app] in *.
  - change (dmem "X" (("X", column 0 pts) :: ("Y", column 1 pts) :: P)) with true. change (dmem "Y" (("X", column 0 pts) :: ("Y", column 1 pts) :: P)) with true. cbv iota.
    change (dmem "Z" (("X", column 0 pts) :: ("Y", column 1 pts) :: P)) with (dmem "Z" P). change (dmem "z" (("X", column 0 pts) :: ("Y", column 1 pts) :: P)) with (dmem "z" P).
    rewrite !dmem_absent by (apply NoAx; cbn; tauto). cbv iota. cbn [dget of_option bind String.eqb Ascii.eqb Bool.eqb ddel].
    rewrite OkP, OkQ, Ev. cbn [andb]. rewrite Rows. do 2 f_equal. now apply points_2.
  - change (dmem "X" (("X", column 0 pts) :: ("Y", column 1 pts) :: ("Z", column 2 pts) :: P)) with true. change (dmem "Y" (("X", column 0 pts) :: ("Y", column 1 pts) :: ("Z", column 2 pts) :: P)) with true.
    change (dmem "Z" (("X", column 0 pts) :: ("Y", column 1 pts) :: ("Z", column 2 pts) :: P)) with true. cbv iota.
    cbn [dget of_option bind String.eqb Ascii.eqb Bool.eqb ddel].
    rewrite OkP, OkQ, Ev. cbn [andb]. rewrite Rows. do 2 f_equal. now apply points_3.
Qed.
End Mesh.

(** ** The file *)
Section Whole.
Context {fl : floats}.

Definition coords (m : tec_mesh fl) : dict (list fl) :=
  [("X", column 0 (tm_points m)); ("Y", column 1 (tm_points m))] ++ (if Nat.eqb (length (hd [] (tm_points m))) 3 then [("Z", column 2 (tm_points m))] else []).
Definition tec_lines (v : string) (m : tec_mesh fl) (z : string) (rows : list cell) : list string :=
  let P := coords m ++ point_columns m in
  let Q := cell_columns m in
  [("TITLE = " ++ quoted ("Written by meshio v" ++ v))%string;
   ("VARIABLES = " ++ join ", " (map quoted (map fst (P ++ Q))))%string;
   zone_line (length (tm_points m)) (length rows);
   pack_line z (if Nat.leb (S (length P)) (length P + length Q) then "," else "")]
  ++ (if Nat.leb (S (length P)) (length P + length Q) then [loc_line (S (length P)) (length P + length Q)] else [])
  ++ flat_map (fun nv => tec_table (snd nv)) (P ++ Q)
  ++ map (fun c => row_line (map (fun i => str_of_Z (i + 1)) c)) rows.

Lemma concat_count (use : list (nat * block)) : length (concat (map (fun ib => bdata (snd ib)) use)) = sum_nat (map (fun ib => blen (snd ib)) use).
Proof. induction use as [|ib use IH]; [reflexivity|]. cbn [map concat sum_nat]. rewrite app_length, IH. reflexivity. Qed.
Lemma in_enum {A} (l : list A) i x : In (i, x) (enumerate l) -> nth_error l i = Some x.
Proof.
  unfold enumerate. assert (G : forall l s, In (i, x) (combine (seq s (length l)) l) -> s <= i /\ nth_error l (i - s) = Some x).
  { clear l. induction l as [|y l IH]; intros s H; [destruct H|]. cbn [length seq combine] in H. destruct H as [H|H]; [injection H as <- <-; rewrite Nat.sub_diag; auto|].
    apply IH in H. destruct H as [Hs Hn]. split; [lia|]. replace (i - s) with (S (i - S s)) by lia. exact Hn. }
  intros H. apply G in H. rewrite Nat.sub_0_r in H. apply H.
Qed.
Lemma values_ok (bs : list block) (v : list (list (list fl))) : length v = length bs ->
  tec_cell_values (top_blocks bs) v = Ok (concat (map (fun ib => nth (fst ib) v []) (top_blocks bs))).
Proof.
  intros Hl. unfold tec_cell_values. rewrite (mapM_ok_in _ (fun ib => nth (fst ib) v [])); [reflexivity|]. intros [i b] Hi. cbn [fst]. unfold top_blocks in Hi. apply filter_In in Hi. destruct Hi as [Hi _].
  apply in_enum in Hi. assert (Hlt : i < length v) by (rewrite Hl; apply nth_error_Some; congruence). now rewrite (nth_error_nth' v [] Hlt).
Qed.

Lemma write_ok v (m : tec_mesh fl) z rows : tec_good m -> tec_select (tm_cells m) = Ok (z, top_blocks (tm_cells m), rows) ->
  Forall2 padded (top_cells (tm_cells m)) rows -> write_tecplot v m = Ok (tec_lines v m z rows).
Proof.
  intros (Hne & (d & Hd & Hp) & _ & _ & _ & Hc & _) Es Hr. unfold write_tecplot. rewrite Es. cbn [bind].
  assert (Ec : tec_coords (tm_points m) = Ok (coords m)).
  { unfold tec_coords, coords. assert (El : length (hd [] (tm_points m)) = d) by (destruct (tm_points m); [congruence|now inversion Hp]). rewrite El.
    destruct Hd as [-> | ->]; reflexivity. }
  rewrite Ec. cbn [bind].
  assert (Ev : exists cs, mapM (fun ka => if smem (fst ka) ["X"; "Y"; "Z"; "x"; "y"; "z"] then Ok []
      else do w <- tec_cell_values (top_blocks (tm_cells m)) (snd (snd ka)); Ok (tec_columns (fst ka) (fst (snd ka), w))) (tm_cdata m) = Ok cs /\ concat cs = cell_columns m).
  { unfold cell_columns. clear - Hc. induction (tm_cdata m) as [|[k [s x]] cd IH]; [now exists []|]. inversion Hc as [|? ? Hx Hcd]; subst. destruct (IH Hcd) as (cs & E & Ecs). cbn [mapM fst snd flat_map].
    cbn [fst snd] in Hx. assert (Hl : length x = length (tm_cells m)) by (symmetry; exact (Forall2_length _ _ _ Hx)).
    unfold columns_of at 1. unfold axis. cbn [fst snd]. destruct (smem k ["X"; "Y"; "Z"; "x"; "y"; "z"]) eqn:Ek.
    - cbn [bind]. rewrite E. cbn [bind]. exists ([] :: cs). split; [reflexivity|]. exact Ecs.
    - rewrite values_ok by auto. cbn [bind]. rewrite E. cbn [bind]. eexists. split; [reflexivity|]. cbn [concat]. rewrite Ecs. f_equal. unfold tec_columns. cbn [fst snd]. rewrite Ek. reflexivity. }
  destruct Ev as (cs & Ev & Ecs). rewrite Ev. cbn [bind]. rewrite Ecs. unfold tec_lines.
  assert (En : sum_nat (map (fun ib => blen (snd ib)) (top_blocks (tm_cells m))) = length rows).
  { rewrite <- concat_count. exact (Forall2_length _ _ _ Hr). }
  rewrite En. change (flat_map (fun ka => tec_columns (fst ka) (snd ka)) (tm_pdata m)) with (point_columns m).
  rewrite <- (map_map fst quoted). reflexivity.
Qed.

(** *** Reading *)
Context (tfl : tec_floats fl).

Lemma info_ok infos (r : list fl) rest : Forall (fun l => plain_line l /\ upper l = l /\ exists w ws, split_ws l = w :: ws /\ @fparse fl w = None) infos -> r <> [] ->
  forall fuel, length infos < fuel -> zone_info (fl := fl) fuel (infos ++ row_line (map ffmt r) :: rest) = Ok (infos, row_line (map ffmt r) :: rest).
Proof.
  intros H Hr. induction H as [|l infos (Hl & Hu & w & ws & Ew & Ep) H IH]; intros [|fuel] Hf; try (cbn in Hf; lia); unfold zone_info; fold (zone_info (fl := fl)); cbn [app].
  - rewrite readline_ok by now apply number_row. rewrite split_upper, split_ws_join by apply words_floats, tfl. destruct r as [|x r]; [congruence|]. cbn [map].
    destruct tfl as (_ & _ & _ & Hx). destruct (Hx x) as [_ Hx']. destruct (@fparse fl (upper (ffmt x))); [reflexivity|congruence].
  - rewrite readline_ok by auto. rewrite Hu, Ew, Ep. rewrite IH by (cbn in Hf; lia). reflexivity.
Qed.
Lemma a_zone_facts z : a_zone z -> word z = true /\ upper z = z.
Proof. intros H. cbn in H. repeat (destruct H as [<-|H]; [split; reflexivity|]). destruct H. Qed.
Lemma zone_line_plain a b : plain_line (zone_line a b).
Proof. unfold zone_line. rewrite <- !str_app_assoc. apply plain_end; reflexivity. Qed.
Lemma pack_line_ok z c : a_zone z -> c = ""%string \/ c = ","%string ->
  plain_line (pack_line z c) /\ upper (pack_line z c) = pack_line z c /\ exists w ws, split_ws (pack_line z c) = w :: ws /\ @fparse fl w = None.
Proof.
  intros Hz Hc. destruct (a_zone_facts z Hz) as [Wz Uz]. unfold pack_line. split; [|split].
  - apply plain_end; [|reflexivity]. destruct Hc as [-> | ->]; [now rewrite str_app_nil_r|]. clear - Hz. cbn in Hz. repeat (destruct Hz as [<-|Hz]; [reflexivity|]). destruct Hz.
  - rewrite !upper_app, Uz. destruct Hc as [-> | ->]; reflexivity.
  - change ("DATAPACKING = BLOCK, ZONETYPE = " ++ z ++ c)%string with ("DATAPACKING" ++ String " " ("= BLOCK, ZONETYPE = " ++ z ++ c))%string. rewrite split_ws_word_space by reflexivity.
    eexists _, _. split; [reflexivity|apply tfl].
Qed.
Lemma loc_line_ok a b : plain_line (loc_line a b) /\ upper (loc_line a b) = loc_line a b /\ exists w ws, split_ws (loc_line a b) = w :: ws /\ @fparse fl w = None.
Proof.
  unfold loc_line. set (r := if Nat.eqb a b then _ else _). assert (Ur : upper r = r) by (unfold r; destruct (Nat.eqb a b); rewrite ?upper_app, !upper_nat; reflexivity). split; [|split].
  - replace ("VARLOCATION = ([" ++ r ++ "] = CELLCENTERED)")%string with (("VARLOCATION = ([" ++ r ++ "] = ") ++ "CELLCENTERED)")%string by now rewrite !str_app_assoc. apply plain_end; reflexivity.
  - rewrite !upper_app, Ur. reflexivity.
  - change ("VARLOCATION = ([" ++ r ++ "] = CELLCENTERED)")%string with ("VARLOCATION" ++ String " " ("= ([" ++ r ++ "] = CELLCENTERED)"))%string. rewrite split_ws_word_space by reflexivity.
    eexists _, _. split; [reflexivity|apply tfl].
Qed.

Lemma split_back {A} (cols : list (list A)) : cols <> [] -> np_split (cumsum (butlast (map (@length A) cols))) (concat cols) = cols.
Proof.
  intros H. rewrite <- (from_raw_to_raw cols H) at 3. unfold cell_data_from_raw1, np_split, cumsum. f_equal. generalize 0 as a. generalize (map (@length A) cols) as l. clear.
  induction l as [|x [|y l] IH]; intros a; [reflexivity..|]. rewrite butlast_cons2. cbn [cumsum_from]. rewrite butlast_cons2. f_equal. rewrite IH. reflexivity.
Qed.
Lemma sizes_ok (P Q : dict (list fl)) nn nc : Forall (fun kv => length (snd kv) = nn) P -> Forall (fun kv => length (snd kv) = nc) Q ->
  map (fun c : bool => if c then Z.of_nat nc else Z.of_nat nn) (repeat false (length P) ++ repeat true (length Q)) = map Z.of_nat (map (@length fl) (map snd (P ++ Q))).
Proof.
  intros HP HQ. rewrite !map_app. f_equal.
  - induction HP as [|kv P Hk HP IH]; [reflexivity|]. cbn [length repeat map]. rewrite IH, Hk. reflexivity.
  - induction HQ as [|kv Q Hk HQ IH]; [reflexivity|]. cbn [length repeat map]. rewrite IH, Hk. reflexivity.
Qed.
Lemma total_ok (cols : list (list fl)) : fold_right Z.add 0%Z (map Z.of_nat (map (@length fl) cols)) = Z.of_nat (length (concat cols)).
Proof. induction cols as [|c cols IH]; [reflexivity|]. cbn [map fold_right concat]. rewrite IH, app_length. lia. Qed.

Lemma column_lengths k (a : shape * list (list fl)) : Forall (fun kv => length (snd kv) = length (snd a)) (columns_of k a).
Proof. unfold columns_of. destruct (axis k); [constructor|]. destruct (fst a); [apply Forall_map, Forall_forall; intros; apply map_length|constructor; [apply map_length|constructor]]. Qed.

Lemma top_positions bs ib : In ib (top_blocks bs) -> nth_error bs (fst ib) = Some (snd ib).
Proof. unfold top_blocks. intros H. apply filter_In in H. destruct H as [H _]. apply in_enum. now destruct ib. Qed.
Lemma cell_lengths (m : tec_mesh fl) rows : tec_good m -> Forall2 padded (top_cells (tm_cells m)) rows -> Forall (fun kv => length (snd kv) = length rows) (cell_columns m).
Proof.
  intros (_ & _ & _ & _ & _ & Hc & _) Hr. unfold cell_columns. apply Forall_flat_map. eapply Forall_impl; [|exact Hc]. intros [k [s x]] Hx. cbn [fst snd] in *.
  eapply Forall_impl; [|apply column_lengths]. intros kv Hk. rewrite Hk. cbn [snd]. rewrite <- (Forall2_length _ _ _ Hr). unfold top_cells.
  assert (G : forall l, (forall ib, In ib l -> nth_error (tm_cells m) (fst ib) = Some (snd ib)) -> length (concat (map (fun ib => nth (fst ib) x []) l)) = length (concat (map (fun ib : nat * block => bdata (snd ib)) l))).
  { induction l as [|[i b] l IH]; intros H; [reflexivity|]. cbn [map concat fst snd]. rewrite !app_length, IH by (intros; apply H; now right). f_equal.
    specialize (H (i, b) (or_introl eq_refl)). cbn [fst snd] in H. destruct (Forall2_nth_error_l _ _ _ Hx _ _ H) as (y & Ey & (L & _)). rewrite (nth_error_nth _ _ [] Ey). exact L. }
  apply G. apply top_positions.
Qed.

Lemma read_ok v (m : tec_mesh fl) z t k rows fuel : tec_good m -> a_zone z -> dget z tecplot_to_meshio_type = Some t ->
  Forall2 padded (top_cells (tm_cells m)) rows -> rows <> [] -> 0 < k -> Forall (fun r => length r = k) rows ->
  length (tec_lines v m z rows) <= fuel ->
  read_tecplot fuel (tec_lines v m z rows) = Ok (TecOut (tm_points m) (Block t rows) (point_columns m) (cell_columns m)).
Proof.
  intros Hg Hz Ht Hr Hne Hk0 Hk Hf. pose proof (cell_lengths m rows Hg Hr) as HQ. destruct Hg as (Hpn & (d & Hd & Hp) & _ & _ & Hpd & _ & Hnames & Hnd).
  set (P := point_columns m) in *. set (Q := cell_columns m) in *.
  assert (HP : Forall (fun kv => length (snd kv) = length (tm_points m)) P).
  { unfold P, point_columns. apply Forall_flat_map. eapply Forall_impl; [|exact Hpd]. intros [kk a] (La & _). cbn [fst snd] in *. eapply Forall_impl; [|apply column_lengths]. intros kv E. cbn in E. now rewrite E. }
  assert (El : length (hd [] (tm_points m)) = d) by (destruct (tm_points m); [congruence|now inversion Hp]).
  assert (Hc : coords m = [("X", column 0 (tm_points m)); ("Y", column 1 (tm_points m))] ++ (if Nat.eqb d 3 then [("Z", column 2 (tm_points m))] else [])) by (unfold coords; now rewrite El).
  assert (HPx : Forall (fun kv => length (snd kv) = length (tm_points m)) (coords m ++ P)).
  { apply Forall_app. split; [|exact HP]. rewrite Hc. repeat constructor; cbn [snd]; try apply map_length. destruct (Nat.eqb d 3); repeat constructor. apply map_length. }
  assert (Hax : Forall (fun kv => axis (fst kv) = false) (P ++ Q)).
  { apply Forall_app. split; [unfold P, point_columns|unfold Q, cell_columns]; apply Forall_flat_map, Forall_forall; intros ka _; apply columns_axis. }
  assert (Hvn : Forall tec_name (map fst ((coords m ++ P) ++ Q))).
  { rewrite <- app_assoc, map_app. apply Forall_app. split; [|now apply Forall_map]. rewrite Hc. destruct (Nat.eqb d 3); cbn; repeat constructor; discriminate. }
  unfold tec_lines in Hf |- *. cbv zeta in Hf |- *. change (point_columns m) with P in Hf |- *. change (cell_columns m) with Q in Hf |- *. clearbody P Q. set (PP := coords m ++ P) in *. set (located := Nat.leb (S (length PP)) (length PP + length Q)) in *.
  destruct (tables_rows (PP ++ Q)) as (Tr & Tn & Tc). set (drows := flat_map (fun nv => chunks 20 (snd nv)) (PP ++ Q)) in *. rewrite Tr in *.
  assert (Dr : exists r0 dr, drows = r0 :: dr).
  { destruct drows as [|r0 dr]; [exfalso|now eexists _, _]. assert (L : length (concat (map snd (PP ++ Q))) = 0) by now rewrite <- Tc. unfold PP in L. rewrite Hc in L. cbn [app map concat snd] in L. rewrite app_length in L. unfold column in L.
    rewrite map_length in L. destruct (tm_points m); [congruence|discriminate]. }
  destruct Dr as (r0 & dr & Dr).
  set (infos := pack_line z (if located then "," else "") :: (if located then [loc_line (S (length PP)) (length PP + length Q)] else [])).
  assert (Hinfo : Forall (fun l => plain_line l /\ upper l = l /\ exists w ws, split_ws l = w :: ws /\ @fparse fl w = None) infos).
  { unfold infos. constructor; [apply pack_line_ok; [auto|destruct located; auto]|]. destruct located; constructor; [apply loc_line_ok|constructor]. }
  set (cl := map (fun c => row_line (map (fun i => str_of_Z (i + 1)) c)) rows) in *.
  assert (Ef : forall a b c, [a; b; c; pack_line z (if located then "," else "")] ++ (if located then [loc_line (S (length PP)) (length PP + length Q)] else []) ++ map (fun r => row_line (map ffmt r)) drows ++ cl
     = a :: b :: c :: infos ++ map (fun r => row_line (map ffmt r)) drows ++ cl) by reflexivity.
  rewrite Ef in *. clear Ef. cbn [length] in Hf. rewrite !app_length, map_length in Hf. assert (Lc : length cl = length rows) by apply map_length. rewrite Lc in Hf.
  destruct fuel as [|[|[|fuel]]]; try lia. unfold read_tecplot, tec_loop; fold (tec_loop (fl := fl)).
  assert (Pt : plain_line ("TITLE = " ++ quoted ("Written by meshio v" ++ v))%string).
  { unfold quoted. rewrite <- str_app_assoc. apply plain_end; reflexivity. }
  rewrite readline_ok by exact Pt.
  change (String.prefix "VARIABLES" (upper ("TITLE = " ++ quoted ("Written by meshio v" ++ v)))) with false. change (String.prefix "ZONE" (upper ("TITLE = " ++ quoted ("Written by meshio v" ++ v)))) with false. cbv iota.
  change (match ("TITLE = " ++ quoted ("Written by meshio v" ++ v))%string with "" => Err AssertionError | _ => ?x end) with x.
  destruct (join_end (map fst (PP ++ Q))) as (js & Ej); [unfold PP; rewrite Hc; discriminate|].
  assert (Pv : plain_line ("VARIABLES = " ++ join ", " (map quoted (map fst (PP ++ Q))))%string).
  { rewrite Ej, <- str_app_assoc. apply plain_end; reflexivity. }
  rewrite readline_ok by exact Pv.
  change (String.prefix "VARIABLES" (upper ("VARIABLES = " ++ join ", " (map quoted (map fst (PP ++ Q)))))) with true. cbv iota.
  set (body := infos ++ map (fun r => row_line (map ffmt r)) drows ++ cl) in *.
  assert (Em : more_variables (length (zone_line (length (tm_points m)) (length rows) :: body)) (zone_line (length (tm_points m)) (length rows) :: body) = ([], zone_line (length (tm_points m)) (length rows) :: body)).
  { cbn [length more_variables]. rewrite readline_ok by apply zone_line_plain. reflexivity. }
  rewrite Em. cbn [fst snd join String.concat]. rewrite variables_ok by (auto; unfold PP; rewrite Hc; cbn; tauto). cbn [bind].
  rewrite readline_ok by apply zone_line_plain.
  change (String.prefix "VARIABLES" (upper (zone_line (length (tm_points m)) (length rows)))) with false. change (String.prefix "ZONE" (upper (zone_line (length (tm_points m)) (length rows)))) with true. cbv iota.
  unfold read_tec_zone, body. rewrite Dr. cbn [map app].
  assert (Hr0 : r0 <> []) by (rewrite Dr in Tn; now inversion Tn).
  rewrite (info_ok infos r0 (map (fun r => row_line (map ffmt r)) dr ++ cl)) by (auto; rewrite Dr in Hf; cbn [length] in Hf; lia). cbn [bind fst snd].
  assert (Ez : exists zd, read_zone (join " " (zone_line (length (tm_points m)) (length rows) :: infos)) = Ok zd /\
    parse_fezone zd (length (map fst (PP ++ Q))) = Ok (Z.of_nat (length (tm_points m)), Z.of_nat (length rows), "FEBLOCK", z, repeat false (length PP) ++ repeat true (length Q))).
  { unfold infos. rewrite map_length, app_length. unfold located. destruct (Nat.leb_spec (S (length PP)) (length PP + length Q)) as [L|L].
    - rewrite zone_located by auto. eexists. split; [reflexivity|]. apply fezone_located. lia.
    - rewrite zone_plain by auto. eexists. split; [reflexivity|]. replace (length Q) with 0 by lia. cbn [repeat]. rewrite app_nil_r, Nat.add_0_r. apply fezone_plain. }
  destruct Ez as (zd & Ez & Ez2). rewrite Ez. cbn [bind]. rewrite Ez2. cbn [bind]. change (String.eqb "FEBLOCK" "FEBLOCK") with true. cbv iota zeta.
  rewrite (sizes_ok PP Q _ _ HPx HQ), total_ok, <- Tc.
  change (row_line (map ffmt r0) :: map (fun r => row_line (map ffmt r)) dr ++ cl) with (map (fun r => row_line (map ffmt r)) (r0 :: dr) ++ cl). rewrite <- Dr.
  rewrite data_ok by (auto; lia). cbn [bind fst snd]. rewrite Tc.
  assert (Ecl : tec_cells fuel (Z.of_nat (length rows)) cl = Ok (map (map (fun i => (i + 1)%Z)) rows)).
  { rewrite <- (app_nil_r cl). apply cells_ok; [|lia]. eapply Forall_impl; [|exact Hk]. intros r Hl ->. cbn in Hl. lia. }
  rewrite Ecl. cbn [bind orb].
  assert (Zs : map Z.to_nat (map Z.of_nat (map (@length fl) (map snd (PP ++ Q)))) = map (@length fl) (map snd (PP ++ Q))).
  { rewrite map_map. apply map_id_in. intros; apply Nat2Z.id. }
  rewrite Zs, split_back by (unfold PP; rewrite Hc; discriminate).
  eapply (mesh_ok z t (tm_points m) d (coords m) P Q k rows); eauto.
Qed.

(** *** A file that ends too early *)
Lemma data_short (rows : list (list fl)) : Forall (fun r => r <> []) rows -> forall fuel n, (Z.of_nat (length (concat rows)) < n)%Z ->
  tec_data (fl := fl) fuel true n (map (fun r => row_line (map ffmt r)) rows) = Err OutOfFuel.
Proof.
  intros H. induction fuel as [|fuel IHf] in rows, H |- *; intros n Hn; unfold tec_data; fold (tec_data (fl := fl)).
  - destruct (Z.leb_spec n 0); [lia|reflexivity].
  - destruct (Z.leb_spec n 0); [lia|]. destruct H as [|r rows Hr H]; [cbn [map tec_readline split_ws]; apply (IHf []); [constructor|exact Hn]|].
    cbn [map]. rewrite readline_ok by now apply number_row. rewrite split_ws_join by apply words_floats, tfl. destruct r as [|x r]; [congruence|]. cbn [map].
    change (ffmt x :: map ffmt r) with (map ffmt (x :: r)). rewrite parse_floats_ok by apply tfl. cbn [bind]. rewrite IHf; [reflexivity|exact H|]. rewrite map_length. cbn [concat] in Hn. rewrite app_length in Hn. lia.
Qed.
Lemma data_enough (rows : list (list fl)) rest : Forall (fun r => r <> []) rows -> forall fuel,
  let r := tec_data (fl := fl) fuel true (Z.of_nat (length (concat rows))) (map (fun r => row_line (map ffmt r)) rows ++ rest) in r = Ok (rows, rest) \/ r = Err OutOfFuel.
Proof.
  intros H fuel. destruct (Nat.le_gt_cases (length rows) fuel) as [L|L]; [left; now apply data_ok|right].
  revert rows H L. induction fuel as [|fuel IH]; intros rows H L; unfold tec_data; fold (tec_data (fl := fl)).
  - destruct H as [|x rows Hx H]; [cbn in L; lia|]. cbn [concat]. rewrite app_length. destruct x; [congruence|]. destruct (Z.leb_spec (Z.of_nat (length (f :: x) + length (concat rows))) 0); [cbn [length] in *; lia|reflexivity].
  - destruct H as [|x rows Hx H]; [cbn in L; lia|]. cbn [concat]. rewrite app_length. destruct x as [|y x]; [congruence|]. destruct (Z.leb_spec (Z.of_nat (length (y :: x) + length (concat rows))) 0); [cbn [length] in *; lia|].
    cbn [map app]. change (ffmt y :: map ffmt x) with (map ffmt (y :: x)). rewrite readline_ok by now apply number_row. rewrite split_ws_join by apply words_floats, tfl. cbn [map].
    change (ffmt y :: map ffmt x) with (map ffmt (y :: x)). rewrite parse_floats_ok by apply tfl. cbn [bind]. rewrite map_length. replace (Z.of_nat (length (y :: x) + length (concat rows)) - Z.of_nat (length (y :: x)))%Z with (Z.of_nat (length (concat rows))) by lia.
    rewrite IH; [reflexivity|exact H|cbn in L; lia].
Qed.
Lemma cells_short (rows : list cell) : Forall (fun r => r <> []) rows -> forall fuel n, (Z.of_nat (length rows) < n)%Z ->
  tec_cells fuel n (map (fun c => row_line (map (fun i => str_of_Z (i + 1)) c)) rows) = Err OutOfFuel.
Proof.
  intros H. induction fuel as [|fuel IHf] in rows, H |- *; intros n Hn; unfold tec_cells; fold tec_cells.
  - destruct (Z.leb_spec n 0); [lia|reflexivity].
  - destruct (Z.leb_spec n 0); [lia|]. destruct H as [|r rows Hr H]; [cbn [map tec_readline split_ws]; apply (IHf []); [constructor|exact Hn]|].
    cbn [map]. rewrite <- (map_map (fun i => (i + 1)%Z) str_of_Z). rewrite readline_ok by (apply plain_row; [apply words_ints|]; apply Forall_map, Forall_forall; intros; apply char_in_str_of_Z; [reflexivity|discriminate]).
    rewrite split_ws_join by apply words_ints. destruct r as [|x r]; [congruence|]. cbn [map].
    change (str_of_Z (x + 1) :: map str_of_Z (map (fun i => (i + 1)%Z) r)) with (map str_of_Z (map (fun i => (i + 1)%Z) (x :: r))). rewrite parse_ints_ok. cbn [bind]. rewrite IHf; [reflexivity|exact H|]. cbn [length] in Hn. lia.
Qed.
Lemma info_enough infos (r : list fl) rest : Forall (fun l => plain_line l /\ upper l = l /\ exists w ws, split_ws l = w :: ws /\ @fparse fl w = None) infos -> r <> [] ->
  forall fuel, let x := zone_info (fl := fl) fuel (infos ++ row_line (map ffmt r) :: rest) in x = Ok (infos, row_line (map ffmt r) :: rest) \/ x = Err OutOfFuel.
Proof.
  intros H Hr fuel. destruct (Nat.le_gt_cases fuel (length infos)) as [L|L]; [right|left; now apply info_ok].
  revert fuel L. induction H as [|l infos (Hl & Hu & w & ws & Ew & Ep) H IH]; intros [|fuel] L; try (cbn in L; lia); try reflexivity.
  unfold zone_info; fold (zone_info (fl := fl)); cbn [app]. rewrite readline_ok by auto. rewrite Hu, Ew, Ep. rewrite IH by (cbn in L; lia). reflexivity.
Qed.

Lemma concat_firstn_lt {A} (rows : list (list A)) i : Forall (fun r => r <> []) rows -> i < length rows -> length (concat (firstn i rows)) < length (concat rows).
Proof.
  intros H. revert i. induction H as [|r rows Hr H IH]; intros i Hi; [cbn in Hi; lia|]. destruct i as [|i]; cbn [firstn concat]; [destruct r; [congruence|cbn; lia]|].
  rewrite !app_length. cbn [length] in Hi. specialize (IH i ltac:(lia)). lia.
Qed.
Lemma short_file v (m : tec_mesh fl) z k rows j fuel : tec_good m -> a_zone z ->
  Forall2 padded (top_cells (tm_cells m)) rows -> 0 < k -> Forall (fun r => length r = k) rows ->
  (if Nat.eqb (length (cell_columns m)) 0 then 4 else 5) < j -> j < length (tec_lines v m z rows) ->
  read_tecplot (fl := fl) fuel (firstn j (tec_lines v m z rows)) = Err OutOfFuel.
Proof.
  intros Hg Hz Hr Hk0 Hk Hj Hf. pose proof (cell_lengths m rows Hg Hr) as HQ. destruct Hg as (Hpn & (d & Hd & Hp) & _ & _ & Hpd & _ & Hnames & Hnd).
  set (P := point_columns m) in *. set (Q := cell_columns m) in *.
  assert (HP : Forall (fun kv => length (snd kv) = length (tm_points m)) P).
  { unfold P, point_columns. apply Forall_flat_map. eapply Forall_impl; [|exact Hpd]. intros [kk a] (La & _). cbn [fst snd] in *. eapply Forall_impl; [|apply column_lengths]. intros kv E. cbn in E. now rewrite E. }
  assert (El : length (hd [] (tm_points m)) = d) by (destruct (tm_points m); [congruence|now inversion Hp]).
  assert (Hc : coords m = [("X", column 0 (tm_points m)); ("Y", column 1 (tm_points m))] ++ (if Nat.eqb d 3 then [("Z", column 2 (tm_points m))] else [])) by (unfold coords; now rewrite El).
  assert (HPx : Forall (fun kv => length (snd kv) = length (tm_points m)) (coords m ++ P)).
  { apply Forall_app. split; [|exact HP]. rewrite Hc. repeat constructor; cbn [snd]; try apply map_length. destruct (Nat.eqb d 3); repeat constructor. apply map_length. }
  assert (Hvn : Forall tec_name (map fst ((coords m ++ P) ++ Q))).
  { rewrite <- app_assoc, map_app. apply Forall_app. split; [|now apply Forall_map]. rewrite Hc. destruct (Nat.eqb d 3); cbn; repeat constructor; discriminate. }
  unfold tec_lines in Hf |- *. cbv zeta in Hf |- *. change (point_columns m) with P in Hf |- *. change (cell_columns m) with Q in Hf |- *. clearbody P Q. set (PP := coords m ++ P) in *. set (located := Nat.leb (S (length PP)) (length PP + length Q)) in *.
  destruct (tables_rows (PP ++ Q)) as (Tr & Tn & Tc). set (drows := flat_map (fun nv => chunks 20 (snd nv)) (PP ++ Q)) in *. rewrite Tr in *.
  assert (Dr : exists r0 dr, drows = r0 :: dr).
  { destruct drows as [|r0 dr]; [exfalso|now eexists _, _]. assert (L : length (concat (map snd (PP ++ Q))) = 0) by now rewrite <- Tc. unfold PP in L. rewrite Hc in L. cbn [app map concat snd] in L. rewrite app_length in L. unfold column in L.
    rewrite map_length in L. destruct (tm_points m); [congruence|discriminate]. }
  destruct Dr as (r0 & dr & Dr).
  set (infos := pack_line z (if located then "," else "") :: (if located then [loc_line (S (length PP)) (length PP + length Q)] else [])).
  assert (Hinfo : Forall (fun l => plain_line l /\ upper l = l /\ exists w ws, split_ws l = w :: ws /\ @fparse fl w = None) infos).
  { unfold infos. constructor; [apply pack_line_ok; [auto|destruct located; auto]|]. destruct located; constructor; [apply loc_line_ok|constructor]. }
  set (cl := map (fun c => row_line (map (fun i => str_of_Z (i + 1)) c)) rows) in *.
  assert (Ef : forall a b c, [a; b; c; pack_line z (if located then "," else "")] ++ (if located then [loc_line (S (length PP)) (length PP + length Q)] else []) ++ map (fun r => row_line (map ffmt r)) drows ++ cl
     = a :: b :: c :: infos ++ map (fun r => row_line (map ffmt r)) drows ++ cl) by reflexivity.
  rewrite Ef in *. clear Ef. cbn [length] in Hf. rewrite !app_length, map_length in Hf. assert (Lc : length cl = length rows) by apply map_length. rewrite Lc in Hf.
  assert (Li : 3 + length infos = if Nat.eqb (length Q) 0 then 4 else 5).
  { unfold infos, located. destruct (Nat.eqb_spec (length Q) 0) as [E|E]; [rewrite E, Nat.add_0_r|]; destruct (Nat.leb_spec (S (length PP)) (length PP + length Q)); destruct (Nat.leb_spec (S (length PP)) (length PP)); cbn [length]; lia. }
  rewrite <- Li in Hj. destruct j as [|[|[|j]]]; try lia. cbn [firstn]. rewrite firstn_app, (firstn_all2 infos) by lia.
  assert (Hi : 0 < j - length infos) by lia. assert (Hi2 : j - length infos < length drows + length rows) by lia. clear Hj. remember (j - length infos) as i eqn:Ei. clear Ei.
  destruct fuel as [|[|[|fuel]]]; [reflexivity| | |];
  unfold read_tecplot, tec_loop; fold (tec_loop (fl := fl));
  (assert (Pt : plain_line ("TITLE = " ++ quoted ("Written by meshio v" ++ v))%string);
  [unfold quoted; rewrite <- str_app_assoc; apply plain_end; reflexivity|]);
  rewrite readline_ok by exact Pt;
  change (String.prefix "VARIABLES" (upper ("TITLE = " ++ quoted ("Written by meshio v" ++ v)))) with false; change (String.prefix "ZONE" (upper ("TITLE = " ++ quoted ("Written by meshio v" ++ v)))) with false; cbv iota;
  change (match ("TITLE = " ++ quoted ("Written by meshio v" ++ v))%string with "" => Err AssertionError | _ => ?x end) with x;
  [reflexivity| |].
  all: destruct (join_end (map fst (PP ++ Q))) as (js & Ej); [unfold PP; rewrite Hc; discriminate|].
  all: assert (Pv : plain_line ("VARIABLES = " ++ join ", " (map quoted (map fst (PP ++ Q))))%string) by (rewrite Ej, <- str_app_assoc; apply plain_end; reflexivity).
  all: rewrite readline_ok by exact Pv.
  all: change (String.prefix "VARIABLES" (upper ("VARIABLES = " ++ join ", " (map quoted (map fst (PP ++ Q)))))) with true; cbv iota.
  all: set (body := infos ++ firstn i (map (fun r => row_line (map ffmt r)) drows ++ cl)) in *.
  all: assert (Em : more_variables (length (zone_line (length (tm_points m)) (length rows) :: body)) (zone_line (length (tm_points m)) (length rows) :: body) = ([], zone_line (length (tm_points m)) (length rows) :: body))
       by (cbn [length more_variables]; rewrite readline_ok by apply zone_line_plain; reflexivity).
  all: rewrite Em; cbn [fst snd join String.concat]; rewrite variables_ok by (auto; unfold PP; rewrite Hc; cbn; tauto); cbn [bind].
  1: reflexivity.
  rewrite readline_ok by apply zone_line_plain.
  change (String.prefix "VARIABLES" (upper (zone_line (length (tm_points m)) (length rows)))) with false. change (String.prefix "ZONE" (upper (zone_line (length (tm_points m)) (length rows)))) with true. cbv iota.
  unfold read_tec_zone, body. assert (Hr0 : r0 <> []) by (rewrite Dr in Tn; now inversion Tn).
  assert (Eb : firstn i (map (fun r => row_line (map ffmt r)) drows ++ cl) = row_line (map ffmt r0) :: firstn (i - 1) (map (fun r => row_line (map ffmt r)) dr ++ cl)).
  { rewrite Dr. destruct i as [|i]; [lia|]. cbn [map app firstn]. now rewrite Nat.sub_succ, Nat.sub_0_r. }
  destruct (info_enough infos r0 (firstn (i - 1) (map (fun r => row_line (map ffmt r)) dr ++ cl)) Hinfo Hr0 fuel) as [Ex|Ex]; rewrite <- Eb in Ex; rewrite Ex; [|reflexivity]. cbn [bind fst snd].
  assert (Ez : exists zd, read_zone (join " " (zone_line (length (tm_points m)) (length rows) :: infos)) = Ok zd /\
    parse_fezone zd (length (map fst (PP ++ Q))) = Ok (Z.of_nat (length (tm_points m)), Z.of_nat (length rows), "FEBLOCK", z, repeat false (length PP) ++ repeat true (length Q))).
  { unfold infos. rewrite map_length, app_length. unfold located. destruct (Nat.leb_spec (S (length PP)) (length PP + length Q)) as [L|L].
    - rewrite zone_located by auto. eexists. split; [reflexivity|]. apply fezone_located. lia.
    - rewrite zone_plain by auto. eexists. split; [reflexivity|]. replace (length Q) with 0 by lia. cbn [repeat]. rewrite app_nil_r, Nat.add_0_r. apply fezone_plain. }
  destruct Ez as (zd & Ez & Ez2). rewrite Ez. cbn [bind]. rewrite Ez2. cbn [bind]. change (String.eqb "FEBLOCK" "FEBLOCK") with true. cbv iota zeta.
  rewrite (sizes_ok PP Q _ _ HPx HQ), total_ok, <- Tc.
  rewrite firstn_app, map_length, firstn_map. destruct (Nat.lt_ge_cases i (length drows)) as [Hlt|Hge].
  - replace (i - length drows) with 0 by lia. cbn [firstn]. rewrite app_nil_r. rewrite data_short; [reflexivity| |].
    + apply Forall_forall. intros x Hx. apply (proj1 (Forall_forall _ _) Tn). rewrite <- (firstn_skipn i). apply in_or_app. now left.
    + apply inj_lt. now apply concat_firstn_lt.
  - rewrite firstn_all2 by lia. destruct (data_enough drows (firstn (i - length drows) cl) Tn fuel) as [Ed|Ed]; rewrite Ed; [|reflexivity]. cbn [bind fst snd].
    unfold cl. rewrite firstn_map. rewrite cells_short; [reflexivity| |].
    + apply Forall_forall. intros x Hx. assert (Hin : In x rows) by (rewrite <- (firstn_skipn (i - length drows)); apply in_or_app; now left). pose proof (proj1 (Forall_forall _ _) Hk x Hin) as Hl. cbv beta in Hl. intros ->. cbn in Hl. lia.
    + apply inj_lt. rewrite firstn_length. lia.
Qed.
End Whole.
