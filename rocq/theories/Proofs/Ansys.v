From Coq Require Import Lia ZArith NArith.
From Verif.Lib Require Import Base Facts Facts2 Text TextFacts Lines LinesFacts Bytes BytesFacts File Hex.
From Verif.Model Require Import Core Helpers Abaqus Ansys.
From Verif.Spec Require Import Core Ansys.
From Verif.Proofs Require Import Stl Gmsh Gmsh22.
Import Model.Ansys.
Local Arguments str_of_nat : simpl never.
Local Arguments str_of_Z : simpl never.
Local Arguments hex_of_Z : simpl never.
Local Arguments String.eqb : simpl never.

(** ** Strings *)
Lemma readline_line l s : one_line l -> readline (nl_ l ++ s) = (nl_ l, s).
Proof.
  unfold nl_, one_line. induction l as [|c l IH]; intros H; [reflexivity|]. cbn [char_in] in H. apply orb_false_iff in H. destruct H as [Hc Hl].
  cbn [append readline]. rewrite Ascii.eqb_sym in Hc. rewrite Hc, IH by auto. reflexivity.
Qed.
Lemma count_app c a b : count_char c (a ++ b) = count_char c a + count_char c b.
Proof. induction a as [|x a IH]; [reflexivity|]. cbn [append count_char]. rewrite IH. lia. Qed.
Lemma count_none c s : char_in c s = false -> count_char c s = 0.
Proof.
  induction s as [|x s IH]; [reflexivity|]. cbn [char_in count_char]. intros H. apply orb_false_iff in H. destruct H as [H1 H2]. rewrite Ascii.eqb_sym in H1. now rewrite H1, IH.
Qed.
Lemma rstrip_open s t : rstrip t = "" -> rstrip (s ++ String "(" t) = (s ++ "(")%string.
Proof.
  intros H. induction s as [|a s IH]; [cbn; now rewrite H|]. cbn [append rstrip]. rewrite IH. destruct (s ++ "(")%string eqn:E; [destruct s; discriminate|reflexivity].
Qed.
Lemma last_open s : last_char (s ++ "(") = Some "("%char.
Proof. induction s as [|a s IH]; [reflexivity|]. cbn [append last_char]. rewrite IH. destruct (s ++ "(")%string eqn:E; [destruct s; discriminate|reflexivity]. Qed.
Lemma ends_open_head s : ends_open (nl_ (String "(" (s ++ "("))) = true.
Proof.
  unfold ends_open, nl_, strip. cbn [append lstrip]. change (is_space "(") with false. cbv iota.
  replace (String "(" ((s ++ "(") ++ String newline "")) with (String "(" s ++ String "(" (String newline ""))%string by (cbn [append]; now rewrite str_app_assoc).
  rewrite rstrip_open by reflexivity. now rewrite last_open.
Qed.
Lemma before_close a t : char_in ")" a = false -> before_char ")" (a ++ String ")" t) = Some (a, t).
Proof.
  induction a as [|x a IH]; [reflexivity|]. cbn [char_in]. intros H. apply orb_false_iff in H. destruct H as [H1 H2]. rewrite Ascii.eqb_sym in H1. cbn [append before_char]. now rewrite H1, IH.
Qed.
Definition a_prefix (p : string) : Prop := p = "" \/ p = "20" \/ p = "30".
Definition a_key (k : string) : Prop := k = "10" \/ k = "12".
Definition head_line (p key args : string) : string := ("(" ++ p ++ key ++ " (" ++ args ++ ")(")%string.
Lemma head_ok p key args : a_prefix p -> a_key key -> char_in ")" args = false -> section_head key (nl_ (head_line p key args)) = Some (p, args).
Proof.
  intros Hp Hk Ha. unfold head_line, nl_. rewrite !str_app_assoc. pose proof (before_close args ("(" ++ String newline "") Ha) as B.
  change (")(" ++ String newline "")%string with (String ")" ("(" ++ String newline "")). revert B. generalize (args ++ String ")" ("(" ++ String newline ""))%string. intros t B.
  destruct Hp as [-> | [-> | ->]], Hk as [-> | ->];
    match goal with |- _ = Some (?p, _) => transitivity (option_map (fun r => (p, fst r)) (before_char ")" t)); [reflexivity|rewrite B; reflexivity] end.
Qed.
Lemma join_no c ws : c <> " "%char -> Forall (fun s => char_in c s = false) ws -> char_in c (join " " ws) = false.
Proof.
  intros Hc. unfold join. induction 1 as [|w ws Hw _ IH]; [reflexivity|]. cbn [String.concat]. destruct ws; [exact Hw|].
  assert (A : forall a b, char_in c (a ++ b)%string = char_in c a || char_in c b) by (induction a as [|x a IHa]; intros b; [reflexivity|]; cbn [append char_in]; rewrite IHa; now rewrite orb_assoc).
  rewrite !A, Hw, IH. cbn. destruct (Ascii.eqb_spec c " "); [contradiction|reflexivity].
Qed.
Definition args_of (zs : list Z) : string := join " " (map hex_of_Z zs).
Lemma args_no c zs : hex_val c = None -> c <> "-"%char -> c <> " "%char -> char_in c (args_of zs) = false.
Proof. intros H1 H2 H3. apply join_no; [exact H3|]. apply Forall_map, Forall_forall. intros z _. now apply char_in_hex. Qed.
Lemma hexes_ok zs : parse_hexes (map hex_of_Z zs) = Ok zs.
Proof. unfold parse_hexes. induction zs as [|z zs IH]; [reflexivity|]. cbn [map mapM]. rewrite parse_hex_of_Z. cbn [of_option bind]. now rewrite IH. Qed.
Lemma hex_words zs : forallb word (map hex_of_Z zs) = true.
Proof. induction zs as [|z zs IH]; [reflexivity|]. cbn [map forallb]. now rewrite word_hex. Qed.
Lemma args_ok some p key a b c d e : a_prefix p -> a_key key -> section_args some key (nl_ (head_line p key (args_of [a; b; c; d; e]))) = Ok (p, [a; b; c; d; e]).
Proof.
  intros Hp Hk. unfold section_args. assert (Hn : char_in ")" (args_of [a; b; c; d; e]) = false) by (apply args_no; [reflexivity|discriminate|discriminate]).
  rewrite head_ok by auto. cbn [of_option bind fst snd].
  assert (Hne : String.eqb (args_of [a; b; c; d; e]) "" = false).
  { unfold args_of. cbn [map join String.concat]. pose proof (word_hex a) as W. destruct (hex_of_Z a); [discriminate|reflexivity]. }
  rewrite Hne, andb_false_r. unfold args_of at 1. rewrite split_ws_join by apply hex_words. change (mapM (fun w => of_option ValueError (parse_hex w)) ?l) with (parse_hexes l).
  rewrite hexes_ok. reflexivity.
Qed.
Lemma head_counts p key args : a_prefix p -> a_key key -> char_in "(" args = false -> char_in ")" args = false -> declaration (nl_ (head_line p key args)) = false.
Proof.
  intros Hp Hk H1 H2. unfold declaration, head_line, nl_. rewrite !count_app, (count_none _ _ H1), (count_none _ _ H2). destruct Hp as [-> | [-> | ->]], Hk as [-> | ->]; reflexivity.
Qed.
Lemma head_one_line p key zs : a_prefix p -> a_key key -> one_line (head_line p key (args_of zs)).
Proof.
  intros Hp Hk. unfold head_line. repeat apply one_line_app; try reflexivity; [destruct Hp as [-> | [-> | ->]]; reflexivity|destruct Hk as [-> | ->]; reflexivity|].
  unfold one_line. apply args_no; [reflexivity|discriminate|discriminate].
Qed.
Lemma head_open p key args : ends_open (nl_ (head_line p key args)) = true.
Proof.
  unfold head_line. change ("(" ++ ?x)%string with (String "(" x). replace (p ++ key ++ " (" ++ args ++ ")(")%string with ((p ++ key ++ " (" ++ args ++ ")") ++ "(")%string by (rewrite !str_app_assoc; reflexivity).
  apply ends_open_head.
Qed.

(** ** Data *)
Lemma take_app a b : take_str (String.length a) (a ++ b) = Some (a, b).
Proof. induction a as [|x a IH]; [reflexivity|]. cbn [String.length append take_str]. rewrite IH. reflexivity. Qed.
Lemma bytes_string_app a b : bytes_string (a ++ b) = (bytes_string a ++ bytes_string b)%string.
Proof. induction a as [|x a IH]; [reflexivity|]. cbn [app bytes_string append]. now rewrite IH. Qed.
Lemma bytes_string_length a : String.length (bytes_string a) = length a.
Proof. induction a as [|x a IH]; [reflexivity|]. cbn. now rewrite IH. Qed.
Lemma string_bytes_string b : Forall is_byte b -> string_bytes (bytes_string b) = b.
Proof. induction 1 as [|x b Hx _ IH]; [reflexivity|]. cbn [bytes_string string_bytes]. rewrite IH, N_ascii_embedding by exact Hx. reflexivity. Qed.

Lemma text_of_app a b : text_of (a ++ b) = (text_of a ++ text_of b)%string.
Proof. induction a as [|x a IH]; [reflexivity|]. cbn [app text_of]. rewrite IH, str_app_assoc. reflexivity. Qed.

Section Raw.
Context {A : Type} (dec_ : bytes -> A) (en : A -> bytes) (k : nat).
Definition codes (x : A) : Prop := length (en x) = k /\ dec_ (string_bytes (bytes_string (en x))) = x.
Lemma items_ok xs rest : Forall codes xs -> raw_items dec_ k (length xs) (bytes_string (concat (map en xs)) ++ rest) = Ok (xs, rest).
Proof.
  induction 1 as [|x xs (L & D) _ IH]; [reflexivity|]. cbn [length map concat raw_items]. rewrite bytes_string_app, str_app_assoc.
  rewrite <- L, <- bytes_string_length, take_app. cbn [of_option bind fst snd]. rewrite bytes_string_length, L, IH. cbn [bind fst snd]. now rewrite D.
Qed.
Lemma rows_ok w rows rest : Forall (fun r => length r = w /\ Forall codes r) rows -> raw_rows dec_ k (length rows) w (bytes_string (concat (map en (concat rows))) ++ rest) = Ok (rows, rest).
Proof.
  induction 1 as [|r rows (L & D) _ IH]; [reflexivity|]. cbn [length concat raw_rows]. rewrite map_app, concat_app, bytes_string_app, str_app_assoc.
  rewrite <- L at 1. rewrite items_ok by exact D. cbn [bind fst snd]. rewrite IH. reflexivity.
Qed.
End Raw.
Lemma lines_words {A} fuel skip (parse : list string -> result A) (f : A -> list string) xs rest : 0 < fuel ->
  Forall (fun x => forallb word (f x) = true /\ f x <> [] /\ parse (f x) = Ok x) xs ->
  word_lines fuel skip parse (length xs) (text_of (map (fun x => row_line (f x)) xs) ++ rest) = Ok (xs, rest).
Proof.
  intros Hf. induction 1 as [|x xs (W & N & P) _ IH]; [reflexivity|]. cbn [length map text_of word_lines].
  assert (E : ((row_line (f x) ++ String newline (text_of (map (fun x => row_line (f x)) xs))) ++ rest = nl_ (row_line (f x)) ++ (text_of (map (fun x => row_line (f x)) xs) ++ rest))%string).
  { unfold nl_. rewrite !str_app_assoc. reflexivity. }
  rewrite E. assert (R := readline_line (row_line (f x)) (text_of (map (fun x => row_line (f x)) xs) ++ rest) (one_line_row _ W)).
  assert (S : split_ws (nl_ (row_line (f x))) = f x).
  { unfold nl_, row_line. clear - W. revert W. unfold join. induction (f x) as [|w ws IH]; intros W; [reflexivity|]. cbn [forallb] in W. apply andb_true_iff in W. destruct W as [W1 W2]. cbn [String.concat].
    destruct ws as [|w2 ws].
    - rewrite (split_ws_word_space w newline) by auto. reflexivity.
    - rewrite str_app_assoc. change ((" " ++ ?a) ++ ?b)%string with (String " " (a ++ b)). rewrite (split_ws_word_space w " ") by auto. f_equal. now apply IH. }
  assert (B : String.eqb (strip (nl_ (row_line (f x)))) "" = false).
  { apply String.eqb_neq. intros E0. assert (X : split_ws (nl_ (row_line (f x))) = []).
    { clear - E0. unfold strip in E0. assert (G : forall s, lstrip s = "" -> split_ws s = []).
      { unfold split_ws. induction s as [|a s IH]; [reflexivity|]. cbn [lstrip split_ws_acc]. destruct (is_space a); [exact IH|discriminate]. }
      apply G. destruct (lstrip (nl_ (row_line (f x)))) as [|a s] eqn:E; [reflexivity|]. exfalso.
      assert (Ha : is_space a = false).
      { clear - E. revert E. generalize (nl_ (row_line (f x))). intros t. induction t as [|b t IH]; cbn [lstrip]; [discriminate|]. destruct (is_space b) eqn:Eb; [exact IH|]. intros [= <- <-]. exact Eb. }
      cbn [rstrip] in E0. destruct (rstrip s); [|discriminate]. rewrite Ha in E0. discriminate. }
    congruence. }
  destruct skip.
  - destruct fuel as [|fuel]; [lia|]. cbn [filled_line]. rewrite R. cbn [fst snd]. rewrite B. cbn [bind fst snd]. rewrite S, P. cbn [bind]. rewrite IH. reflexivity.
  - rewrite R. cbn [bind fst snd]. rewrite S, P. cbn [bind]. rewrite IH. reflexivity.
Qed.

(** ** Lines of the file *)
Lemma head_index p key args : a_prefix p -> a_key key -> exists t, drop_open (nl_ (head_line p key args)) = Some t /\ digits t = (p ++ key)%string.
Proof.
  intros Hp Hk. unfold head_line, nl_. rewrite !str_app_assoc. generalize (args ++ ")(" ++ String newline "")%string. intros u.
  destruct Hp as [-> | [-> | ->]], Hk as [-> | ->]; eexists; split; reflexivity.
Qed.
Lemma head_strip p key args : String.eqb (strip (nl_ (head_line p key args))) "" = false.
Proof.
  unfold strip, nl_, head_line. change ("(" ++ ?x)%string with (String "(" x). cbn [append lstrip]. change (is_space "(") with false. cbv iota.
  cbn [rstrip]. match goal with |- String.eqb (match ?x with _ => _ end) _ = _ => destruct x; reflexivity end.
Qed.
Lemma head_not_empty p key args : String.eqb (nl_ (head_line p key args)) "" = false.
Proof. reflexivity. Qed.

Section File.
Context {fl : floats} (Hfl : floats_ok fl) (c4 c8 : codec fl).
Notation loop := (ansys_loop c4 c8).
(** What closes a section *)
Definition closing (binary : bool) (key : string) : string :=
  if binary then (String newline ")" ++ nl_ ("End of Binary Section " ++ key ++ ")"))%string else nl_ "))".
Lemma close_ok (binary : bool) p key f rest : p <> "" -> a_prefix p -> a_key key -> 40 <= f ->
  skip_close f 2 (closing binary (p ++ key) ++ rest) = Ok (String newline rest).
Proof.
  intros Hne Hp Hk Hf. replace f with (40 + (f - 40)) by lia. generalize (f - 40). intros g.
  destruct binary; [|reflexivity]. destruct Hp as [-> | [-> | ->]]; [congruence| |]; destruct Hk as [-> | ->]; reflexivity.
Qed.
Lemma close_text_ok f rest : 40 <= f -> skip_close f 2 (nl_ "))" ++ rest) = Ok (String newline rest).
Proof. intros Hf. replace f with (40 + (f - 40)) by lia. reflexivity. Qed.
Lemma blank_step k f st rest : loop (S k) f st (String newline rest) = loop k f st rest.
Proof. reflexivity. Qed.

Lemma points_read f (binary : bool) m rest : 40 <= f -> (an_dim m = 2 \/ an_dim m = 3) -> Forall (fun p => length p = an_dim m) (an_points m) ->
  (binary = true -> an_single m = false /\ codec_width c8 8 /\ (forall v, Forall is_byte (enc c8 v)) /\ Forall (Forall (exact c8)) (an_points m)) ->
  exists line body, (ansys_points_text c4 c8 binary m ++ rest)%string = (line ++ body)%string /\ line = nl_ (head_line (if binary then "30" else "") "10" (args_of [1; 1; Z.of_nat (length (an_points m)); 1; Z.of_nat (an_dim m)]%Z)) /\
    read_ansys_points c4 c8 f line None None body = Ok (Some (an_dim m, an_points m), Some 1%Z, Some (Z.of_nat (length (an_points m))), String newline rest).
Proof.
  intros Hf Hd Hw Hb. eexists. eexists. split; [|split; [reflexivity|]].
  - unfold ansys_points_text, args_of, head_line. cbn [map join String.concat].
    instantiate (1 := ((if binary then raw (concat (map (enc c8) (concat (an_points m)))) ++ closing true "3010" else text_of (map (fun p => row_line (map ffmt p)) (an_points m)) ++ nl_ "))") ++ rest)%string).
    rewrite !str_app_assoc. unfold nl_. rewrite !str_app_assoc. destruct binary; cbn [append].
    + destruct (Hb eq_refl) as (-> & _). unfold closing, nl_. cbn [append]. rewrite !str_app_assoc. reflexivity.
    + rewrite !str_app_assoc. reflexivity.
  - unfold read_ansys_points.
    assert (Hp : a_prefix (if binary then "30" else "")) by (destruct binary; [right; now right|now left]). assert (Hk : a_key "10") by now left.
    rewrite head_counts by (auto; apply args_no; try reflexivity; discriminate). rewrite args_ok by auto. cbn [bind arg nth]. rewrite head_open. cbn [bind].
    replace (Z.of_nat (length (an_points m)) - 1 + 1)%Z with (Z.of_nat (length (an_points m))) by lia.
    replace (Z.of_nat (length (an_points m)) <? 0)%Z with false by (symmetry; apply Z.ltb_ge; lia). replace (Z.of_nat (an_dim m) <? 0)%Z with false by (symmetry; apply Z.ltb_ge; lia).
    cbn [orb]. rewrite !Nat2Z.id. destruct binary.
    + destruct (Hb eq_refl) as (_ & Hcw & Hby & Hx). change (String.eqb "30" "") with false. change (String.eqb "30" "20") with false. cbv iota. rewrite str_app_assoc. unfold raw.
      rewrite (rows_ok (dec c8) (enc c8) 8).
      * cbn [bind fst snd]. change "3010" with ("30" ++ "10")%string. rewrite close_ok by (auto; discriminate). reflexivity.
      * rewrite Forall_forall in *. intros r Hr. split; [now apply Hw|]. apply Forall_forall. intros x Hin. pose proof (proj1 (Forall_forall _ _) (Hx r Hr) x Hin) as E. split; [apply Hcw|].
        rewrite string_bytes_string by apply Hby. exact E.
    + change (String.eqb "" "") with true. cbv iota. rewrite str_app_assoc. rewrite (lines_words f true (fixed (an_dim m) parse_floats) (map ffmt)); [|lia|].
      * cbn [bind fst snd]. rewrite close_text_ok by auto. reflexivity.
      * rewrite Forall_forall in *. intros r Hr. specialize (Hw r Hr). split; [|split].
        { apply forallb_forall. intros w Hin. apply in_map_iff in Hin. destruct Hin as (x & <- & _). apply Hfl. }
        { destruct r; [cbn in Hw; lia|discriminate]. }
        { unfold fixed. rewrite map_length, Hw, Nat.eqb_refl. now apply parse_floats_ok. }
Qed.
Lemma ansys_type_facts t w : In (t, w) ansys_types -> exists k, dget t meshio_to_ansys_type = Some k /\ str_of_Z k = hex_of_Z k /\ zget k ansys_cell_types = Some (t, Some w) /\ 0 < w.
Proof. intros H. cbn in H. repeat (destruct H as [H|H]; [injection H as <- <-; eexists; split; [reflexivity|split; [reflexivity|split; [reflexivity|lia]]]|]). destruct H. Qed.
Definition kind_prefix (binary : bool) (k : int_kind) : string := if binary then match k with I32 => "20" | _ => "30" end else "".
Lemma block_read f (binary : bool) first kb rest : 40 <= f -> ansys_block (snd kb) ->
  (binary = true -> fst kb <> OtherInt /\ Forall (Forall (fits_kind (fst kb))) (bdata (snd kb))) ->
  exists t s body line, dget (btype (snd kb)) meshio_to_ansys_type = Some t /\ ansys_block_text binary first kb = Ok s /\ (s ++ rest)%string = (line ++ body)%string /\
    line = nl_ (head_line (kind_prefix binary (fst kb)) "12" (args_of [1; first; first + Z.of_nat (blen (snd kb)) - 1; 1; t]%Z)) /\
    read_ansys_cells f line body = Ok (Some (Block (btype (snd kb)) (map (map (fun i => (i + 1)%Z)) (bdata (snd kb)))), String newline rest).
Proof.
  intros Hf (w & Ht & Hw) Hb. destruct (ansys_type_facts _ _ Ht) as (t & Hg & Hs & Hz & Hpos).
  set (values := map (map (fun i => (i + 1)%Z)) (bdata (snd kb))).
  set (body := ((if binary then raw (concat (map (sint_bytes false (int_width (fst kb))) (concat values))) ++ closing true (kind_prefix binary (fst kb) ++ "12")
                 else text_of (map (fun c => row_line (map hex_of_Z c)) values) ++ nl_ "))") ++ rest)%string).
  exists t. eexists. exists body. eexists. split; [exact Hg|]. split; [|split; [|split; [reflexivity|]]].
  - unfold ansys_block_text. assert (E : ansys_key binary (fst kb) = Ok (kind_prefix binary (fst kb) ++ "12")%string).
    { unfold ansys_key, kind_prefix. destruct binary; [|reflexivity]. destruct (Hb eq_refl) as [Ho _]. destruct (fst kb); [reflexivity|reflexivity|congruence]. }
    rewrite E, Hg. cbn [of_option bind]. reflexivity.
  - unfold body, args_of, head_line. cbn [map join String.concat]. rewrite Hs. fold values. unfold nl_. destruct binary; cbn [append]; repeat (rewrite ?str_app_assoc; cbn [append]); [|reflexivity].
    unfold closing, nl_. repeat (rewrite ?str_app_assoc; cbn [append]). reflexivity.
  - unfold read_ansys_cells. assert (Hp : a_prefix (kind_prefix binary (fst kb))) by (unfold kind_prefix; destruct binary; [destruct (fst kb); [right; now left|right; now right|right; now right]|now left]).
    assert (Hk : a_key "12") by now right. rewrite head_counts by (auto; apply args_no; try reflexivity; discriminate). rewrite args_ok by auto. cbn [bind arg nth]. rewrite Hz. cbn [of_option bind].
    change (Z.eqb 1 0) with false. cbv iota. rewrite head_open. cbn [bind snd fst].
    replace (first + Z.of_nat (blen (snd kb)) - 1 - first + 1)%Z with (Z.of_nat (blen (snd kb))) by lia. replace (Z.of_nat (blen (snd kb)) <? 0)%Z with false by (symmetry; apply Z.ltb_ge; lia).
    rewrite Nat2Z.id. assert (Hlen : blen (snd kb) = length values) by (unfold values; rewrite map_length; reflexivity). rewrite Hlen. unfold body.
    assert (Hv : Forall (fun c => length c = w) values) by (unfold values; apply Forall_map; eapply Forall_impl; [|exact Hw]; intros c E; now rewrite map_length).
    destruct binary.
    + destruct (Hb eq_refl) as (Ho & Hr). assert (Epn : String.eqb (kind_prefix true (fst kb)) "" = false) by (destruct (fst kb); reflexivity). rewrite Epn.
      replace (if String.eqb (kind_prefix true (fst kb)) "20" then 4 else 8) with (int_width (fst kb)) by (destruct (fst kb); reflexivity).
      rewrite str_app_assoc. unfold raw. rewrite (rows_ok (sint_value false) (sint_bytes false (int_width (fst kb))) (int_width (fst kb))).
      * cbn [bind fst snd]. rewrite close_ok; auto. now apply String.eqb_neq.
      * unfold values. apply Forall_map. apply Forall_forall. intros c Hc. split; [rewrite map_length; now apply (proj1 (Forall_forall _ _) Hw)|]. apply Forall_map. apply Forall_forall. intros i Hi.
        pose proof (proj1 (Forall_forall _ _) (proj1 (Forall_forall _ _) Hr c Hc) i Hi) as Fi. cbn beta in Fi. split; [apply sint_bytes_length|].
        rewrite string_bytes_string by apply sint_bytes_ok. destruct (fst kb); [| |destruct Fi]; cbn [fits_kind int_width] in *; apply sint_value_bytes; auto; lia.
    + change (String.eqb (kind_prefix false (fst kb)) "") with true. cbv iota. rewrite str_app_assoc. rewrite (lines_words f false (fixed w parse_hexes) (map hex_of_Z)); [|lia|].
      * cbn [bind fst snd]. rewrite close_text_ok by auto. reflexivity.
      * eapply Forall_impl; [|exact Hv]. cbv beta. intros c Hc. split; [apply hex_words|split].
        { destruct c; [cbn in Hc; lia|discriminate]. }
        { unfold fixed. rewrite map_length, Hc, Nat.eqb_refl. apply hexes_ok. }
Qed.

(** ** The loop *)
Lemma index_12 p : a_prefix p -> smem (p ++ "12") ["0"; "1"; "2"] = false /\ index_is "10" (p ++ "12") = false /\ index_is "12" (p ++ "12") = true.
Proof. intros [-> | [-> | ->]]; repeat split; reflexivity. Qed.
Lemma index_10 p : a_prefix p -> smem (p ++ "10") ["0"; "1"; "2"] = false /\ index_is "10" (p ++ "10") = true.
Proof. intros [-> | [-> | ->]]; repeat split; reflexivity. Qed.
Lemma head_step p key args k f st body : a_prefix p -> a_key key -> one_line (head_line p key args) ->
  loop (S k) f st (nl_ (head_line p key args) ++ body) =
  (if index_is "10" (p ++ key) then do r <- read_ansys_points c4 c8 f (nl_ (head_line p key args)) (as_first st) (as_last st) body;
          let '(pts, first, last, s2) := r in
          loop k f (AnsysState (as_points st ++ match pts with Some p => [p] | None => [] end) (as_cells st) first last) s2
   else do r <- read_ansys_cells f (nl_ (head_line p key args)) body;
          loop k f (AnsysState (as_points st) (as_cells st ++ match fst r with Some b => [b] | None => [] end) (as_first st) (as_last st)) (snd r)).
Proof.
  intros Hp Hk Hl. cbn [ansys_loop]. rewrite readline_line by exact Hl. rewrite head_not_empty, head_strip. destruct (head_index p key args Hp Hk) as (t & -> & Ed). rewrite Ed.
  assert (Hne : (p ++ key)%string <> "") by (destruct Hp as [-> | [-> | ->]], Hk as [-> | ->]; discriminate). destruct (p ++ key)%string eqn:Epk; [congruence|]. rewrite <- Epk. cbn [bind].
  destruct Hk as [-> | ->].
  - destruct (index_10 p Hp) as (-> & ->). reflexivity.
  - destruct (index_12 p Hp) as (-> & -> & ->). reflexivity.
Qed.
Lemma block_step f (binary : bool) first kb rest k st : 40 <= f -> ansys_block (snd kb) ->
  (binary = true -> fst kb <> OtherInt /\ Forall (Forall (fits_kind (fst kb))) (bdata (snd kb))) ->
  exists s, ansys_block_text binary first kb = Ok s /\ 2 <= String.length s /\
    loop (2 + k) f st (s ++ rest) = loop k f (AnsysState (as_points st) (as_cells st ++ [Block (btype (snd kb)) (map (map (fun i => (i + 1)%Z)) (bdata (snd kb)))]) (as_first st) (as_last st)) rest.
Proof.
  intros Hf Hk Hb. destruct (block_read f binary first kb rest Hf Hk Hb) as (t & s & body & line & Ht & Hs & E & -> & R). exists s. split; [exact Hs|].
  assert (Hp : a_prefix (kind_prefix binary (fst kb))) by (unfold kind_prefix; destruct binary; [destruct (fst kb); [right; now left|right; now right|right; now right]|now left]).
  assert (Hy : a_key "12") by now right. split.
  - unfold ansys_block_text in Hs. destruct (ansys_key binary (fst kb)); [|discriminate]. cbn [bind] in Hs. rewrite Ht in Hs. cbn [of_option bind] in Hs. assert (s = _) as -> by (injection Hs; intros X; symmetry; exact X).
    unfold nl_. cbn [append String.length]. rewrite !string_length_app. cbn [String.length]. lia.
  - rewrite E. change (2 + k) with (S (S k)). rewrite head_step by (auto; apply head_one_line; auto). destruct (index_12 _ Hp) as (_ & -> & _). rewrite R. cbn [bind fst snd]. apply blank_step.
Qed.
Lemma blocks_steps f (binary : bool) kbs : 40 <= f -> Forall (fun kb => ansys_block (snd kb)) kbs ->
  (binary = true -> Forall (fun kb => fst kb <> OtherInt /\ Forall (Forall (fits_kind (fst kb))) (bdata (snd kb))) kbs) ->
  forall first k st rest, exists s, ansys_blocks_text binary first kbs = Ok s /\ 2 * length kbs <= String.length s /\
    loop (2 * length kbs + k) f st (s ++ rest) = loop k f (AnsysState (as_points st) (as_cells st ++ map (fun kb => Block (btype (snd kb)) (map (map (fun i => (i + 1)%Z)) (bdata (snd kb)))) kbs) (as_first st) (as_last st)) rest.
Proof.
  intros Hf Hk. induction Hk as [|kb kbs Hkb _ IH]; intros Hb first k st rest.
  - exists "". split; [reflexivity|]. split; [cbn; lia|]. cbn [length map Nat.mul Nat.add append]. rewrite app_nil_r. destruct st; reflexivity.
  - assert (Hb1 : binary = true -> fst kb <> OtherInt /\ Forall (Forall (fits_kind (fst kb))) (bdata (snd kb))) by (intros E; specialize (Hb E); now inversion Hb).
    assert (Hb2 : binary = true -> Forall (fun kb => fst kb <> OtherInt /\ Forall (Forall (fits_kind (fst kb))) (bdata (snd kb))) kbs) by (intros E; specialize (Hb E); now inversion Hb).
    destruct (IH Hb2 (first + Z.of_nat (blen (snd kb)))%Z k (AnsysState (as_points st) (as_cells st ++ [Block (btype (snd kb)) (map (map (fun i => (i + 1)%Z)) (bdata (snd kb)))]) (as_first st) (as_last st)) rest) as (s2 & E2 & L2 & R2).
    destruct (block_step f binary first kb (s2 ++ rest) (2 * length kbs + k) st Hf Hkb Hb1) as (s1 & E1 & L1 & R1).
    exists (s1 ++ s2)%string. cbn [ansys_blocks_text]. rewrite E1. cbn [bind]. rewrite E2. cbn [bind]. split; [reflexivity|]. rewrite string_length_app. cbn [length]. split; [lia|].
    replace (2 * S (length kbs) + k) with (2 + (2 * length kbs + k)) by lia. rewrite str_app_assoc, R1, R2. cbn [as_points as_cells as_first as_last map]. rewrite <- app_assoc. reflexivity.
Qed.
Lemma points_step f (binary : bool) m k st rest : 40 <= f -> (an_dim m = 2 \/ an_dim m = 3) -> Forall (fun p => length p = an_dim m) (an_points m) ->
  (binary = true -> an_single m = false /\ codec_width c8 8 /\ (forall v, Forall is_byte (enc c8 v)) /\ Forall (Forall (exact c8)) (an_points m)) ->
  as_first st = None -> as_last st = None ->
  loop (2 + k) f st (ansys_points_text c4 c8 binary m ++ rest) =
  loop k f (AnsysState (as_points st ++ [(an_dim m, an_points m)]) (as_cells st) (Some 1%Z) (Some (Z.of_nat (length (an_points m))))) rest.
Proof.
  intros Hf Hd Hw Hb F L. destruct (points_read f binary m rest Hf Hd Hw Hb) as (line & body & E & -> & R). rewrite E.
  assert (Hp : a_prefix (if binary then "30" else "")) by (destruct binary; [right; now right|now left]). assert (Hy : a_key "10") by now left.
  change (2 + k) with (S (S k)). rewrite head_step by (auto; apply head_one_line; auto). destruct (index_10 _ Hp) as (_ & ->). rewrite F, L, R. cbn [bind]. apply blank_step.
Qed.
(** The four lines at the start *)
Definition ansys_head (v : string) (m : ansys_mesh fl) : string :=
  let total := Z.of_nat (sum_nat (map (fun kb => blen (snd kb)) (an_cells m))) in
  let q := String (ascii_of_nat 34) "" in
  (nl_ ("(1 " ++ q ++ "meshio " ++ v ++ q ++ ")") ++ nl_ ("(2 " ++ str_of_nat (an_dim m) ++ ")") ++
   nl_ ("(10 (0 1 " ++ hex_of_Z (Z.of_nat (length (an_points m))) ++ " 0))") ++ nl_ ("(12 (0 1 " ++ hex_of_Z total ++ " 0))"))%string.
Lemma open_strip u : String.eqb (strip (String "(" u)) "" = false.
Proof. unfold strip. cbn [lstrip]. change (is_space "(") with false. cbv iota. cbn [rstrip]. destruct (rstrip u); reflexivity. Qed.
Lemma plain_step l u d k f st rest : l = String "(" u -> one_line l -> drop_open (nl_ l) = Some (nl_ u) -> digits (nl_ u) = d -> d <> "" ->
  declaration (nl_ l) = true -> smem d ["0"; "1"; "2"] = true -> loop (S k) f st (nl_ l ++ rest) = loop k f st rest.
Proof.
  intros El Hl Hdr Hd Hne Hc Hm. cbn [ansys_loop]. rewrite readline_line by exact Hl.
  assert (E1 : String.eqb (nl_ l) "" = false) by (rewrite El; reflexivity). assert (E2 : String.eqb (strip (nl_ l)) "" = false) by (rewrite El; apply open_strip).
  rewrite E1, E2, Hdr, Hd. destruct d as [|a d]; [congruence|]. cbn [bind]. rewrite Hm. apply Nat.eqb_eq in Hc. rewrite Hc, Nat.sub_diag. destruct f; reflexivity.
Qed.
Lemma declared_step l u d k f rest ps cs : l = String "(" u -> one_line l -> drop_open (nl_ l) = Some (nl_ u) -> digits (nl_ u) = d ->
  declaration (nl_ l) = true -> a_key d -> loop (S k) f (AnsysState ps cs None None) (nl_ l ++ rest) = loop k f (AnsysState ps cs None None) rest.
Proof.
  intros El Hl Hdr Hd Hc Hk. cbn [ansys_loop]. rewrite readline_line by exact Hl.
  assert (E1 : String.eqb (nl_ l) "" = false) by (rewrite El; reflexivity). assert (E2 : String.eqb (strip (nl_ l)) "" = false) by (rewrite El; apply open_strip).
  rewrite E1, E2, Hdr, Hd. destruct Hk as [-> | ->]; cbn [bind].
  - change (smem "10" ["0"; "1"; "2"]) with false. change (index_is "10" "10") with true. cbv iota. unfold read_ansys_points. rewrite Hc. cbn [bind as_points as_cells]. now rewrite app_nil_r.
  - change (smem "12" ["0"; "1"; "2"]) with false. change (index_is "10" "12") with false. change (index_is "12" "12") with true. cbv iota. unfold read_ansys_cells. rewrite Hc. cbn [bind fst snd as_points as_cells as_first as_last]. now rewrite app_nil_r.
Qed.
Lemma hex_line z : one_line (hex_of_Z z).
Proof. unfold one_line. now apply char_in_hex. Qed.
Lemma head_steps v m k f rest : plain_version v -> (an_dim m = 2 \/ an_dim m = 3) ->
  loop (4 + k) f (AnsysState [] [] None None) (ansys_head v m ++ rest) = loop k f (AnsysState [] [] None None) rest /\
  (forall i, i <= 4 -> loop i f (AnsysState [] [] None None) (ansys_head v m ++ rest) = Err OutOfFuel).
Proof.
  intros (V1 & V2 & V3) Hd. unfold ansys_head. rewrite !str_app_assoc. set (q := String (ascii_of_nat 34) "").
  assert (Q : forall c, c <> ascii_of_nat 34 -> count_char c q = 0) by (intros c Hc; unfold q; cbn [count_char]; destruct (Ascii.eqb_spec (ascii_of_nat 34) c); [congruence|reflexivity]).
  set (st := AnsysState [] [] None None).
  assert (E1 : forall k r, loop (S k) f st (nl_ ("(1 " ++ q ++ "meshio " ++ v ++ q ++ ")") ++ r) = loop k f st r).
  { intros k0 r. apply (plain_step _ ("1 " ++ q ++ "meshio " ++ v ++ q ++ ")") "1"); try reflexivity; try discriminate.
    - repeat apply one_line_app; try reflexivity; exact V3.
    - unfold declaration, nl_. rewrite !count_app, (count_none _ _ V1), (count_none _ _ V2), !Q by discriminate. reflexivity. }
  assert (X : exists d, str_of_nat (an_dim m) = d /\ (d = "2" \/ d = "3")) by (destruct Hd as [-> | ->]; eexists; (split; [reflexivity|]); [now left|now right]).
  destruct X as (d & -> & Hd').
  assert (E2 : forall k r, loop (S k) f st (nl_ ("(2 " ++ d ++ ")") ++ r) = loop k f st r).
  { intros k0 r. apply (plain_step _ ("2 " ++ d ++ ")") "2"); try reflexivity; try discriminate; try (destruct Hd' as [-> | ->]; reflexivity). }
  assert (E3 : forall z k r, loop (S k) f st (nl_ ("(10 (0 1 " ++ hex_of_Z z ++ " 0))") ++ r) = loop k f st r).
  { intros z k0 r. apply (declared_step _ ("10 (0 1 " ++ hex_of_Z z ++ " 0))") "10"); try reflexivity; try now left.
    - repeat apply one_line_app; try reflexivity; apply hex_line.
    - unfold declaration, nl_. rewrite !count_app. rewrite (count_none "(" (hex_of_Z _)), (count_none ")" (hex_of_Z _)) by (now apply char_in_hex). reflexivity. }
  assert (E4 : forall z k r, loop (S k) f st (nl_ ("(12 (0 1 " ++ hex_of_Z z ++ " 0))") ++ r) = loop k f st r).
  { intros z k0 r. apply (declared_step _ ("12 (0 1 " ++ hex_of_Z z ++ " 0))") "12"); try reflexivity; try now right.
    - repeat apply one_line_app; try reflexivity; apply hex_line.
    - unfold declaration, nl_. rewrite !count_app. rewrite (count_none "(" (hex_of_Z _)), (count_none ")" (hex_of_Z _)) by (now apply char_in_hex). reflexivity. }
  split.
  - change (4 + k) with (S (S (S (S k)))). now rewrite E1, E2, E3, E4.
  - intros i Hi. destruct i as [|i]; [reflexivity|]. rewrite E1. destruct i as [|i]; [reflexivity|]. rewrite E2. destruct i as [|i]; [reflexivity|]. rewrite E3. destruct i as [|i]; [reflexivity|].
    rewrite E4. destruct i as [|i]; [reflexivity|lia].
Qed.
Lemma write_ok v (binary : bool) m s : (an_dim m = 2 \/ an_dim m = 3) -> ansys_blocks_text binary 0%Z (an_cells m) = Ok s ->
  write_ansys c4 c8 v binary m = Ok (ansys_head v m ++ ansys_points_text c4 c8 binary m ++ s)%string.
Proof.
  intros Hd E. unfold write_ansys. assert ((Nat.eqb (an_dim m) 2 || Nat.eqb (an_dim m) 3) = true) as -> by (destruct Hd as [-> | ->]; reflexivity). cbn [negb]. rewrite E. cbn [bind].
  unfold ansys_head. rewrite !str_app_assoc. reflexivity.
Qed.
Theorem ansys_roundtrip v (binary : bool) m : plain_version v -> ansys_good binary c8 m ->
  exists file, write_ansys c4 c8 v binary m = Ok file /\
    forall fuel, String.length file + 64 <= fuel -> read_ansys c4 c8 fuel file = Ok (AnsysOut (an_points m) (map snd (an_cells m))).
Proof.
  intros Hv (Hd & Hw & Hk & Hb).
  assert (Hb1 : binary = true -> an_single m = false /\ codec_width c8 8 /\ (forall v, Forall is_byte (enc c8 v)) /\ Forall (Forall (exact c8)) (an_points m)) by (intros E; destruct (Hb E) as (? & ? & ? & ? & _); auto).
  assert (Hb2 : binary = true -> Forall (fun kb => fst kb <> OtherInt /\ Forall (Forall (fits_kind (fst kb))) (bdata (snd kb))) (an_cells m)) by (intros E; apply (Hb E)).
  destruct (blocks_steps 64 binary (an_cells m) ltac:(lia) Hk Hb2 0%Z 0 (AnsysState [] [] None None) "") as (s & Es & Ls & _).
  eexists. split; [apply write_ok; eauto|]. intros fuel Hf. rewrite !string_length_app in Hf. unfold read_ansys.
  replace fuel with (4 + (2 + (2 * length (an_cells m) + S (fuel - 7 - 2 * length (an_cells m))))) at 1 by lia.
  rewrite (proj1 (head_steps _ _ _ _ _ Hv Hd)). rewrite points_step; auto; try lia.
  destruct (blocks_steps fuel binary (an_cells m) ltac:(lia) Hk Hb2 0%Z (S (fuel - 7 - 2 * length (an_cells m))) (AnsysState [(an_dim m, an_points m)] [] (Some 1%Z) (Some (Z.of_nat (length (an_points m))))) "") as (s' & Es' & _ & R).
  assert (s' = s) as -> by congruence. rewrite str_app_nil_r in R. cbn [as_points as_cells app]. rewrite R. cbn [ansys_loop readline bind app as_points as_cells as_first as_last]. change (String.eqb "" "") with true. cbv iota. cbn [bind].
  unfold ansys_finish. cbn [as_points forallb fst snd as_cells as_first map concat]. rewrite Nat.eqb_refl. cbn [andb]. rewrite app_nil_r.
  assert (E : forall l : list (int_kind * block), mapM (fun b => Ok (Block (btype b) (map (map (fun i => (i - 1)%Z)) (bdata b)))) (map (fun kb => Block (btype (snd kb)) (map (map (fun i => (i + 1)%Z)) (bdata (snd kb)))) l) = Ok (map snd l)).
  { induction l as [|[kk [t d]] l IH]; [reflexivity|]. cbn [map mapM bind snd btype bdata]. rewrite IH. cbn [bind]. do 3 f_equal. rewrite map_map. rewrite <- (map_id d) at 2. apply map_ext. intros c. rewrite map_map. rewrite <- (map_id c) at 2. apply map_ext. intros i. lia. }
  rewrite E. reflexivity.
Qed.

(** ** Sections *)
Lemma blocks_sections (binary : bool) kbs : forall first s, ansys_blocks_text binary first kbs = Ok s ->
  exists sections, s = String.concat "" sections /\ length sections = length kbs /\
    forall k kb, nth_error kbs k = Some kb -> exists key t body, ansys_key binary (fst kb) = Ok key /\ dget (btype (snd kb)) meshio_to_ansys_type = Some t /\
      nth_error sections k = Some (nl_ ("(" ++ key ++ " (1 " ++ hex_of_Z (first + Z.of_nat (cells_before (map snd kbs) k)) ++ " " ++
                                       hex_of_Z (first + Z.of_nat (cells_before (map snd kbs) (S k)) - 1) ++ " 1 " ++ str_of_Z t ++ ")(") ++ body)%string.
Proof.
  induction kbs as [|kb kbs IH]; intros first s H.
  - injection H as <-. exists []. split; [reflexivity|]. split; [reflexivity|]. intros [|k] kb E; discriminate.
  - cbn [ansys_blocks_text] in H. destruct (ansys_block_text binary first kb) as [s1|] eqn:E1; [|discriminate]. cbn [bind] in H.
    destruct (ansys_blocks_text binary (first + Z.of_nat (blen (snd kb))) kbs) as [s2|] eqn:E2; [|discriminate]. cbn [bind] in H. injection H as <-.
    destruct (IH _ _ E2) as (ss & -> & Hl & Hn). exists (s1 :: ss). split; [|split; [cbn; lia|]].
    { destruct ss; [cbn; now rewrite str_app_nil_r|reflexivity]. }
    intros [|k] kb' E.
    + cbn [nth_error] in E. assert (kb' = kb) as -> by congruence. unfold ansys_block_text in E1. destruct (ansys_key binary (fst kb)) as [key|]; [|discriminate]. cbn [bind] in E1.
      destruct (dget (btype (snd kb)) meshio_to_ansys_type) as [t|]; [|discriminate]. cbn [of_option bind] in E1. exists key, t. eexists. split; [reflexivity|]. split; [reflexivity|].
      unfold cells_before. cbn [map firstn sum_nat fold_right nth_error]. assert (s1 = _) as -> by (assert (X : forall a b : string, Ok a = Ok b -> b = a) by congruence; exact (X _ _ E1)).
      replace (first + Z.of_nat 0)%Z with first by lia. replace (blen (snd kb) + 0) with (blen (snd kb)) by lia. reflexivity.
    + cbn [nth_error] in E. destruct (Hn k kb' E) as (key & t & body & Hk & Ht & Hs). exists key, t, body. split; [exact Hk|]. split; [exact Ht|]. cbn [nth_error]. rewrite Hs.
      unfold cells_before. cbn [map firstn sum_nat fold_right]. fold (sum_nat (map blen (firstn k (map snd kbs)))). fold (sum_nat (map blen (firstn (S k) (map snd kbs)))).
      rewrite !Nat2Z.inj_add, !Z.add_assoc. reflexivity.
Qed.

(** ** Truncated files *)
Lemma filled_end fuel : filled_line fuel "" = Err OutOfFuel.
Proof. induction fuel as [|f IH]; [reflexivity|]. cbn [filled_line readline fst snd]. exact IH. Qed.
Lemma close_end fuel n : skip_close fuel (S n) "" = Err OutOfFuel.
Proof. induction fuel as [|f IH]; [reflexivity|]. cbn [skip_close]. exact IH. Qed.
Lemma close_never s : forall n, skip_close (String.length s) (S n) s = Err OutOfFuel -> forall fuel, skip_close fuel (S n) s = Err OutOfFuel.
Proof.
  induction s as [|a s IH]; intros n H fuel; [apply close_end|]. destruct fuel as [|f]; [reflexivity|]. cbn [skip_close String.length] in *.
  destruct (Ascii.eqb a "("); [now apply IH|]. destruct (Ascii.eqb a ")"); [|now apply IH]. destruct n as [|n]; [destruct (String.length s); discriminate|now apply IH].
Qed.
Lemma word_lines_end {A} fuel (parse : list string -> result A) n : 0 < n -> word_lines fuel true parse n "" = Err OutOfFuel.
Proof. destruct n; [lia|]. intros _. cbn [word_lines]. rewrite filled_end. reflexivity. Qed.
Lemma word_lines_cut {A} fuel (parse : list string -> result A) (f : A -> list string) n xs : 0 < fuel -> length xs < n ->
  Forall (fun x => forallb word (f x) = true /\ f x <> [] /\ parse (f x) = Ok x) xs ->
  word_lines fuel true parse n (text_of (map (fun x => row_line (f x)) xs)) = Err OutOfFuel.
Proof.
  intros Hf Hn H. assert (G : forall k s, word_lines fuel true parse (length xs + k) s = do r <- word_lines fuel true parse (length xs) s; do q <- word_lines fuel true parse k (snd r); Ok (fst r ++ fst q, snd q)).
  { clear. induction (length xs) as [|n IH]; intros k s.
    - cbn [Nat.add word_lines bind snd fst app]. destruct (word_lines fuel true parse k s) as [[a b]|]; reflexivity.
    - cbn [Nat.add word_lines]. destruct (filled_line fuel s) as [r|]; [|reflexivity]. cbn [bind]. destruct (parse (split_ws (fst r))) as [x|]; [|reflexivity]. cbn [bind]. rewrite IH.
      destruct (word_lines fuel true parse n (snd r)) as [q|]; [|reflexivity]. cbn [bind fst snd]. destruct (word_lines fuel true parse k (snd q)) as [q2|]; reflexivity. }
  replace n with (length xs + (n - length xs)) by lia. rewrite G. pose proof (lines_words fuel true parse f xs "" Hf H) as E. rewrite str_app_nil_r in E. rewrite E. cbn [bind snd].
  rewrite word_lines_end by lia. reflexivity.
Qed.
Theorem ansys_truncated v m j : plain_version v -> ansys_good false c8 m -> j <= length (an_points m) ->
  exists cut tail, write_ansys c4 c8 v false m = Ok (cut ++ tail)%string /\ tail <> "" /\
    cut = (ansys_head v m ++ nl_ ("(10 (1 1 " ++ hex_of_Z (Z.of_nat (length (an_points m))) ++ " 1 " ++ hex_of_Z (Z.of_nat (an_dim m)) ++ ")(") ++
           text_of (map (fun p => row_line (map ffmt p)) (firstn j (an_points m))))%string /\
    forall fuel, read_ansys c4 c8 fuel cut = Err OutOfFuel.
Proof.
  intros Hv (Hd & Hw & Hk & _) Hj.
  destruct (blocks_steps 64 false (an_cells m) ltac:(lia) Hk ltac:(discriminate) 0%Z 0 (AnsysState [] [] None None) "") as (s & Es & _ & _).
  eexists. exists (text_of (map (fun p => row_line (map ffmt p)) (skipn j (an_points m))) ++ nl_ "))" ++ s)%string. split; [|split; [|split; [reflexivity|]]].
  - rewrite (write_ok _ _ _ _ Hd Es). f_equal. rewrite !str_app_assoc. f_equal. unfold ansys_points_text. rewrite !str_app_assoc. f_equal.
    rewrite <- (firstn_skipn j (an_points m)) at 1. rewrite map_app, text_of_app, !str_app_assoc. reflexivity.
  - destruct (text_of _); discriminate.
  - intros fuel. unfold read_ansys. destruct (Nat.leb_spec fuel 4) as [Hle|Hgt].
    { rewrite (proj2 (head_steps v m 0 fuel _ Hv Hd) fuel Hle). reflexivity. }
    replace fuel with (4 + S (fuel - 5)) at 1 by lia. rewrite (proj1 (head_steps _ _ _ _ _ Hv Hd)).
    assert (Eh : ("(10 (1 1 " ++ hex_of_Z (Z.of_nat (length (an_points m))) ++ " 1 " ++ hex_of_Z (Z.of_nat (an_dim m)) ++ ")(")%string =
                 head_line "" "10" (args_of [1; 1; Z.of_nat (length (an_points m)); 1; Z.of_nat (an_dim m)]%Z)).
    { unfold args_of, head_line. cbn [map join String.concat]. rewrite !str_app_assoc. reflexivity. }
    rewrite Eh. assert (Hp : a_prefix "") by now left. assert (Hy : a_key "10") by now left.
    rewrite head_step by (auto; apply head_one_line; auto). destruct (index_10 _ Hp) as (_ & ->). unfold read_ansys_points.
    rewrite head_counts by (auto; apply args_no; try reflexivity; discriminate). rewrite args_ok by auto. cbn [bind arg nth as_first as_last]. rewrite head_open. cbn [bind].
    replace (Z.of_nat (length (an_points m)) - 1 + 1)%Z with (Z.of_nat (length (an_points m))) by lia.
    replace (Z.of_nat (length (an_points m)) <? 0)%Z with false by (symmetry; apply Z.ltb_ge; lia). replace (Z.of_nat (an_dim m) <? 0)%Z with false by (symmetry; apply Z.ltb_ge; lia).
    cbn [orb]. rewrite !Nat2Z.id. change (String.eqb "" "") with true. cbv iota.
    assert (Hx : Forall (fun x : list fl => forallb word (map ffmt x) = true /\ map ffmt x <> [] /\ fixed (an_dim m) parse_floats (map ffmt x) = Ok x) (an_points m)).
    { rewrite Forall_forall in *. intros r Hr. specialize (Hw r Hr). split; [|split].
      - apply forallb_forall. intros w Hin. apply in_map_iff in Hin. destruct Hin as (x & <- & _). apply Hfl.
      - destruct r; [cbn in Hw; lia|discriminate].
      - unfold fixed. rewrite map_length, Hw, Nat.eqb_refl. now apply parse_floats_ok. }
    assert (Hl : length (firstn j (an_points m)) = j) by (rewrite firstn_length; lia).
    destruct (Nat.eq_dec j (length (an_points m))) as [->|Hne].
    + rewrite firstn_all. pose proof (lines_words fuel true (fixed (an_dim m) parse_floats) (map ffmt) (an_points m) "" ltac:(lia) Hx) as E. rewrite str_app_nil_r in E. rewrite E. cbn [bind snd].
      rewrite close_end. reflexivity.
    + rewrite (word_lines_cut fuel (fixed (an_dim m) parse_floats) (map ffmt)); [reflexivity|lia|lia|]. rewrite <- (firstn_skipn j (an_points m)) in Hx. apply Forall_app in Hx. apply Hx.
Qed.

(** ** Files of other programs *)
Lemma section_line_head key args : section_line key args = nl_ (head_line "" key (args_of args)).
Proof. unfold section_line, nl_, head_line, args_of. rewrite !str_app_assoc. reflexivity. Qed.
Lemma point_section_step d zone first kind ps k f st rest : 40 <= f -> 0 < d -> Forall (fun p : list fl => length p = d) ps ->
  (as_last st = None \/ as_last st = Some (first - 1)%Z) ->
  loop (2 + k) f st (point_section d zone first kind ps ++ rest) =
  loop k f (AnsysState (as_points st ++ [(d, ps)]) (as_cells st) (match as_first st with None => Some first | x => x end) (Some (first + Z.of_nat (length ps) - 1)%Z)) rest.
Proof.
  intros Hf Hd Hw HL. unfold point_section. rewrite section_line_head, !str_app_assoc. assert (Hp : a_prefix "") by now left. assert (Hy : a_key "10") by now left.
  change (2 + k) with (S (S k)). rewrite head_step by (auto; apply head_one_line; auto). destruct (index_10 _ Hp) as (_ & ->). unfold read_ansys_points.
  rewrite head_counts by (auto; apply args_no; try reflexivity; discriminate). rewrite args_ok by auto. cbn [bind arg nth]. rewrite head_open. cbn [bind].
  assert (E : match as_last st with Some l => negb (Z.eqb (l + 1) first) | None => false end = false).
  { destruct HL as [-> | ->]; [reflexivity|]. replace (first - 1 + 1)%Z with first by lia. now rewrite Z.eqb_refl. }
  rewrite E. replace (first + Z.of_nat (length ps) - 1 - first + 1)%Z with (Z.of_nat (length ps)) by lia.
  replace (Z.of_nat (length ps) <? 0)%Z with false by (symmetry; apply Z.ltb_ge; lia). replace (Z.of_nat d <? 0)%Z with false by (symmetry; apply Z.ltb_ge; lia).
  cbn [orb]. rewrite !Nat2Z.id. change (String.eqb "" "") with true. cbv iota. rewrite (lines_words f true (fixed d parse_floats) (map ffmt)); [|lia|].
  - cbn [bind fst snd]. unfold section_end. change ("))" ++ String newline "")%string with (nl_ "))"). rewrite close_text_ok by auto. cbn [bind]. rewrite blank_step. destruct (as_first st); reflexivity.
  - rewrite Forall_forall in *. intros r Hr. specialize (Hw r Hr). split; [|split].
    + apply forallb_forall. intros w Hin. apply in_map_iff in Hin. destruct Hin as (x & <- & _). apply Hfl.
    + destruct r; [cbn in Hw; lia|discriminate].
    + unfold fixed. rewrite map_length, Hw, Nat.eqb_refl. now apply parse_floats_ok.
Qed.
Lemma point_sections_steps d f parts : 40 <= f -> 0 < d -> Forall (fun p => Forall (fun r : list fl => length r = d) (snd p)) parts ->
  forall first k st rest, (as_last st = None \/ as_last st = Some (first - 1)%Z) ->
  loop (2 * length parts + k) f st (point_sections d first parts ++ rest) =
  loop k f (AnsysState (as_points st ++ map (fun p => (d, snd p)) parts) (as_cells st)
              (match parts with [] => as_first st | _ => match as_first st with None => Some first | x => x end end)
              (match parts with [] => as_last st | _ => Some (first + Z.of_nat (sum_nat (map (fun p => length (snd p)) parts)) - 1)%Z end)) rest.
Proof.
  intros Hf Hd. induction 1 as [|[[zone kind] ps] parts Hps _ IH]; intros first k st rest HL.
  - cbn [length point_sections map Nat.mul Nat.add append]. rewrite app_nil_r. destruct st; reflexivity.
  - cbn [point_sections length]. rewrite str_app_assoc. replace (2 * S (length parts) + k) with (2 + (2 * length parts + k)) by lia. cbn [snd] in Hps.
    rewrite point_section_step by auto. rewrite IH by (cbn [as_last]; right; f_equal; lia). cbn [as_points as_cells as_first as_last map snd sum_nat fold_right]. rewrite <- app_assoc. cbn [app].
    fold (sum_nat (map (fun p : Z * Z * list (list fl) => length (snd p)) parts)).
    f_equal. destruct parts as [|p parts]; f_equal.
    + cbn. f_equal. lia.
    + destruct (as_first st); reflexivity.
    + f_equal. lia.
Qed.
Lemma codes_known c t w : In (c, (t, w)) ansys_codes -> zget c ansys_cell_types = Some (t, Some w) /\ 0 < w.
Proof. intros H. cbn in H. repeat (destruct H as [H|H]; [injection H as <- <- <-; split; [reflexivity|lia]|]). destruct H. Qed.
Lemma cell_section_step offset c b k f st rest : 40 <= f -> cell_part_block c b ->
  loop (2 + k) f st (cell_part_text offset c ++ rest) =
  loop k f (AnsysState (as_points st) (as_cells st ++ [Block (btype b) (map (map (fun i => (i + offset)%Z)) (bdata b))]) (as_first st) (as_last st)) rest.
Proof.
  intros Hf (t & w & Hin & Hkind & Hw & ->). destruct (codes_known _ _ _ Hin) as (Hz & Hpos). unfold cell_part_text, cell_section. rewrite section_line_head, !str_app_assoc.
  assert (Hp : a_prefix "") by now left. assert (Hy : a_key "12") by now right.
  change (2 + k) with (S (S k)). rewrite head_step by (auto; apply head_one_line; auto). destruct (index_12 _ Hp) as (_ & -> & _). unfold read_ansys_cells.
  rewrite head_counts by (auto; apply args_no; try reflexivity; discriminate). rewrite args_ok by auto. cbn [bind arg nth]. rewrite head_open. cbn [bind].
  destruct (Z.eqb_spec (cp_kind c) 0) as [|_]; [contradiction|]. rewrite Hz. cbn [of_option bind snd fst].
  replace (cp_first c + Z.of_nat (length (cp_cells c)) - 1 - cp_first c + 1)%Z with (Z.of_nat (length (cp_cells c))) by lia.
  replace (Z.of_nat (length (cp_cells c)) <? 0)%Z with false by (symmetry; apply Z.ltb_ge; lia). rewrite Nat2Z.id. change (String.eqb "" "") with true. cbv iota. cbn [btype bdata].
  set (values := map (map (fun i => (i + offset)%Z)) (cp_cells c)).
  replace (map (fun r => row_line (map (fun i => hex_of_Z (i + offset)) r)) (cp_cells c)) with (map (fun r => row_line (map hex_of_Z r)) values)
    by (unfold values; rewrite map_map; apply map_ext; intros r; now rewrite map_map).
  replace (length (cp_cells c)) with (length values) by (unfold values; now rewrite map_length).
  rewrite (lines_words f false (fixed w parse_hexes) (map hex_of_Z)); [|lia|].
  - cbn [bind fst snd]. unfold section_end. change ("))" ++ String newline "")%string with (nl_ "))"). rewrite close_text_ok by auto. cbn [bind fst snd]. apply blank_step.
  - unfold values. apply Forall_map. eapply Forall_impl; [|exact Hw]. cbv beta. intros r Hr. split; [apply hex_words|split].
    + destruct r; [cbn in Hr; lia|discriminate].
    + unfold fixed. rewrite !map_length, Hr, Nat.eqb_refl. apply hexes_ok.
Qed.
Lemma cell_sections_steps offset f cs bs : 40 <= f -> Forall2 cell_part_block cs bs ->
  forall k st rest, loop (2 * length cs + k) f st (String.concat "" (map (cell_part_text offset) cs) ++ rest) =
  loop k f (AnsysState (as_points st) (as_cells st ++ map (fun b => Block (btype b) (map (map (fun i => (i + offset)%Z)) (bdata b))) bs) (as_first st) (as_last st)) rest.
Proof.
  intros Hf. induction 1 as [|c b cs bs Hc _ IH]; intros k st rest.
  - cbn [length map Nat.mul Nat.add append String.concat]. rewrite app_nil_r. destruct st; reflexivity.
  - assert (E : String.concat "" (map (cell_part_text offset) (c :: cs)) = (cell_part_text offset c ++ String.concat "" (map (cell_part_text offset) cs))%string).
    { cbn [map String.concat]. destruct (map (cell_part_text offset) cs); [cbn [String.concat]; now rewrite str_app_nil_r|reflexivity]. }
    rewrite E, str_app_assoc. cbn [length]. replace (2 * S (length cs) + k) with (2 + (2 * length cs + k)) by lia. rewrite (cell_section_step offset c b) by auto. rewrite IH.
    cbn [as_points as_cells as_first as_last map]. rewrite <- app_assoc. reflexivity.
Qed.
Lemma point_sections_length d first (parts : list (Z * Z * list (list fl))) : 2 * length parts <= String.length (point_sections d first parts).
Proof.
  revert first. induction parts as [|[[z kd] ps] parts IH]; intros first; [cbn; lia|]. cbn [point_sections length]. rewrite string_length_app. specialize (IH (first + Z.of_nat (length ps))%Z).
  unfold point_section, section_end. rewrite !string_length_app. cbn [String.length]. lia.
Qed.
Lemma cell_sections_length offset cs : 2 * length cs <= String.length (String.concat "" (map (cell_part_text offset) cs)).
Proof.
  induction cs as [|c cs IH]; [cbn; lia|]. cbn [map String.concat length]. assert (2 <= String.length (cell_part_text offset c)).
  { unfold cell_part_text, cell_section, section_end. rewrite !string_length_app. cbn [String.length]. lia. }
  destruct (map (cell_part_text offset) cs) eqn:E; [destruct cs; [cbn [length]; lia|discriminate]|]. rewrite !string_length_app. cbn [append] in *. lia.
Qed.
Theorem ansys_offset d offset parts cs bs fuel : 0 < d -> parts <> [] -> Forall (fun p => Forall (fun r : list fl => length r = d) (snd p)) parts ->
  Forall2 cell_part_block cs bs ->
  let file := (point_sections d offset parts ++ String.concat "" (map (cell_part_text offset) cs))%string in
  String.length file + 64 <= fuel -> read_ansys c4 c8 fuel file = Ok (AnsysOut (concat (map snd parts)) bs).
Proof.
  intros Hd Hne Hw Hc file Hf. unfold file in *. clear file. rewrite string_length_app in Hf. pose proof (point_sections_length d offset parts). pose proof (cell_sections_length offset cs). unfold read_ansys.
  replace fuel with (2 * length parts + (2 * length cs + S (fuel - 1 - 2 * length parts - 2 * length cs))) at 1 by lia.
  rewrite point_sections_steps by (auto; lia). rewrite <- (str_app_nil_r (String.concat _ _)). rewrite (cell_sections_steps offset fuel cs bs) by (auto; lia).
  cbn [as_points as_cells as_first as_last app]. cbn [ansys_loop readline]. change (String.eqb "" "") with true. cbv iota. cbn [bind]. unfold ansys_finish. cbn [as_points as_cells as_first].
  destruct parts as [|p parts]; [congruence|]. cbn [map]. 
  assert (E1 : forallb (fun q : nat * list (list fl) => Nat.eqb (fst q) d) ((d, snd p) :: map (fun p => (d, snd p)) parts) = true).
  { apply forallb_forall. intros q Hq. assert (fst q = d) as ->; [|apply Nat.eqb_refl]. destruct Hq as [<-|Hq]; [reflexivity|]. apply in_map_iff in Hq. destruct Hq as (x & <- & _). reflexivity. }
  rewrite E1.
  assert (E : forall l, mapM (fun b => Ok (Block (btype b) (map (map (fun i => (i - offset)%Z)) (bdata b)))) (map (fun b => Block (btype b) (map (map (fun i => (i + offset)%Z)) (bdata b))) l) = Ok l).
  { induction l as [|[t dd] l IH]; [reflexivity|]. cbn [map mapM bind btype bdata]. rewrite IH. cbn [bind]. do 3 f_equal. rewrite map_map. rewrite <- (map_id dd) at 2. apply map_ext. intros c. rewrite map_map. rewrite <- (map_id c) at 2. apply map_ext. intros i. lia. }
  rewrite E. cbn [bind]. do 2 f_equal. cbn [map concat snd]. f_equal. rewrite map_map. reflexivity.
Qed.
Theorem ansys_gap d first zone kind (ps : list (list fl)) zone2 first2 kind2 (ps2 : list (list fl)) rest fuel : 0 < d -> Forall (fun r => length r = d) ps ->
  first2 <> (first + Z.of_nat (length ps))%Z -> 50 <= fuel ->
  read_ansys c4 c8 fuel (point_section d zone first kind ps ++ point_section d zone2 first2 kind2 ps2 ++ rest) = Err ReadError.
Proof.
  intros Hd Hw Hne Hf. unfold read_ansys. replace fuel with (2 + S (fuel - 3)) at 1 by lia. rewrite point_section_step by (auto; lia).
  unfold point_section. rewrite section_line_head, !str_app_assoc. assert (Hp : a_prefix "") by now left. assert (Hy : a_key "10") by now left.
  rewrite head_step by (auto; apply head_one_line; auto). destruct (index_10 _ Hp) as (_ & ->). unfold read_ansys_points.
  rewrite head_counts by (auto; apply args_no; try reflexivity; discriminate). rewrite args_ok by auto. cbn [bind arg nth as_first as_last].
  destruct (Z.eqb_spec (first + Z.of_nat (length ps) - 1 + 1) first2) as [E|_]; [exfalso; apply Hne; lia|]. reflexivity.
Qed.
End File.
