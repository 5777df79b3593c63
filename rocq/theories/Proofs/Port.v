(** What ASCII and binary files have in common: laws of ports. *)
From Coq Require Import ZArith NArith List String Ascii Bool Lia ZifyBool ZifyNat ZifyN.
From Verif.Lib Require Import Base Facts Facts2 Text TextFacts Lines LinesFacts Bytes BytesFacts File.
From Verif.Model Require Import Core Gmsh Gmsh22 Port Msh41.
From Verif.Spec Require Import Core Blocks Gmsh Msh41.
From Verif.Proofs Require Import Gmsh Gmsh22.
Import ListNotations.

Definition item_ok {F} (i : item F) : Prop := match i with Int k z => in_range k z | Dbl _ => True end.
Definition rows_ok {F} (rows : list (list (item F))) : Prop := Forall (fun r => r <> [] /\ Forall item_ok r) rows.

Record port_ok {F} (p : port F) (good : list (unt p) -> Prop)
  (holds : list (unt p) -> list (item F) -> list (unt p) -> Prop) : Prop := PortOk {
  ok_put : forall rows rest, good rest -> rows_ok rows -> holds (put p rows ++ rest) (concat rows) rest;
  ok_ints : forall k zs items s rest, Forall (in_range k) zs -> holds s (map (Int k) zs ++ items) rest ->
    exists s', get_ints p k (length zs) s = Ok (zs, s') /\ holds s' items rest;
  ok_floats : forall xs items s rest, holds s (map Dbl xs ++ items) rest ->
    exists s', get_floats p (length xs) s = Ok (xs, s') /\ holds s' items rest;
  ok_nil : forall s rest, holds s [] rest -> s = rest;
  ok_good_put : forall rows rest, good rest -> rows_ok rows -> good (put p rows ++ rest);
  ok_good_close : forall t rest, word (end_line t) = true -> good rest -> good (closing p t ++ rest);
  ok_skip : forall t rest, word (end_line t) = true -> good rest -> skip_end p t (closing p t ++ rest) = rest;
  ok_good_nil : good [];
  ok_end : next_section p [] = Ok None /\ next_section40 p [] = Ok None;
  ok_open : forall t rest, word t = true -> good rest ->
    next_section p (opening p t ++ rest) = Ok (Some (t, rest)) /\
    next_section40 p (opening p t ++ rest) = Ok (Some (t, rest)) /\
    good (opening p t ++ rest) /\ opening p t <> [];
  ok_names : forall fd rest, NoDup (dkeys fd) -> Forall plain_name (dkeys fd) -> fd <> [] -> good rest ->
    exists u fd', text p (write_physical_names fd) = opening p "PhysicalNames" ++ u /\
      get_names p [] (u ++ rest) = Ok (fd', rest) /\ good (u ++ rest) /\
      (forall k, dget k fd' = dget k fd) /\ NoDup (dkeys fd');
  ok_no_names : text p (write_physical_names []) = [];
  ok_data : forall tag name nc rows, word tag = true -> word (end_line tag) = true -> plain_name name ->
    In nc [1; 3; 9] -> Forall (fun r : list F => length r = nc) rows -> (Z.of_nat (length rows) < 2 ^ 31 - 1)%Z ->
    exists u, put_data p tag name nc rows = Ok (opening p tag ++ u) /\
      forall dd rest, good rest -> get_data p tag dd (u ++ rest) = Ok (dset name rows dd, rest) /\ good (u ++ rest);
  ok_header : forall v rest, word v = true -> good rest -> get_header p (put_header p v ++ rest) = Ok (v, rest) }.

Lemma char_in_newline_end t : word (end_line t) = true -> one_line (end_line t).
Proof. intros H. apply char_in_newline_word. now apply word_no_space in H. Qed.

(** ** ASCII *)
Lemma split_ws_acc_words cur s : no_space cur = true -> forallb word (split_ws_acc cur s) = true.
Proof.
  revert cur; induction s as [|a s IH]; intros cur Hc; cbn [split_ws_acc].
  - destruct cur as [|b cur]; [reflexivity|]. cbn [forallb]. unfold word. now rewrite Hc.
  - destruct (is_space a) eqn:E.
    + destruct cur as [|b cur]; [now apply IH|]. cbn [forallb]. rewrite IH by reflexivity. unfold word. now rewrite Hc.
    + apply IH. clear - Hc E. induction cur as [|b cur IH]; cbn [append no_space] in *; [now rewrite E|].
      apply andb_true_iff in Hc. destruct Hc as [-> Hc]. now apply IH.
Qed.
Lemma split_ws_words s : forallb word (split_ws s) = true.
Proof. apply split_ws_acc_words. reflexivity. Qed.
Lemma forallb_skipn {A} (f : A -> bool) n l : forallb f l = true -> forallb f (skipn n l) = true.
Proof.
  revert l; induction n; intros l H; [exact H|]. destruct l; [reflexivity|]. cbn in *. apply andb_true_iff in H. apply IHn. tauto.
Qed.

Lemma drop_solid lines rest : Forall (fun l => blank l = false) lines -> solid rest -> drop_blank (lines ++ rest) = lines ++ rest.
Proof. intros H Hr. destruct H as [|l lines Hl H]; [exact Hr|]. cbn. now rewrite Hl. Qed.


(** With at least one token to take. *)
Lemma take_tokens_pos_prefix lines rest ts1 ts2 : solid rest -> Forall (fun l => blank l = false) lines ->
  flat_map split_ws lines = ts1 ++ ts2 -> ts1 <> [] ->
  exists lines', take_tokens_pos (length ts1) (lines ++ rest) = Some (ts1, lines' ++ rest) /\
    Forall (fun l => blank l = false) lines' /\ flat_map split_ws lines' = ts2.
Proof.
  intros Hr H. revert ts1; induction H as [|l lines Hl H IH]; intros ts1 E Hne.
  - cbn in E. symmetry in E. apply app_eq_nil in E. destruct E; congruence.
  - cbn [flat_map] in E. cbn [app take_tokens_pos]. destruct (Nat.ltb_spec (length (split_ws l)) (length ts1)) as [Hlt|Hge].
    + assert (E1 : ts1 = split_ws l ++ skipn (length (split_ws l)) ts1).
      { assert (F1 := f_equal (firstn (length (split_ws l))) E). rewrite firstn_app, Nat.sub_diag, firstn_all in F1. cbn [firstn] in F1.
        rewrite app_nil_r in F1. rewrite firstn_app in F1.
        replace (length (split_ws l) - length ts1) with 0 in F1 by lia. cbn [firstn] in F1. rewrite app_nil_r in F1.
        rewrite <- (firstn_skipn (length (split_ws l)) ts1) at 1. now rewrite <- F1. }
      set (t := skipn (length (split_ws l)) ts1) in *.
      assert (E2 : flat_map split_ws lines = t ++ ts2).
      { rewrite E1 in E. rewrite <- app_assoc in E. now apply app_inv_head in E. }
      assert (Ht : t <> []) by (intros C; apply (f_equal (@length _)) in E1; rewrite C, app_nil_r in E1; lia).
      destruct (IH t E2 Ht) as (lines' & A & B & C).
      replace (length ts1 - length (split_ws l)) with (length t) by (unfold t; now rewrite skipn_length).
      rewrite A. exists lines'. rewrite <- E1. auto.
    + assert (F1 := f_equal (firstn (length ts1)) E). rewrite firstn_app in F1.
      replace (length ts1 - length (split_ws l)) with 0 in F1 by lia. cbn [firstn] in F1. rewrite app_nil_r in F1.
      rewrite firstn_app, Nat.sub_diag, firstn_all in F1. cbn [firstn] in F1. rewrite app_nil_r in F1.
      assert (F2 : skipn (length ts1) (split_ws l) ++ flat_map split_ws lines = ts2).
      { rewrite <- (firstn_skipn (length ts1) (split_ws l)), F1, <- app_assoc in E. now apply app_inv_head in E. }
      rewrite F1. set (u := skipn (length ts1) (split_ws l)) in *.
      assert (Hu : forallb word u = true) by apply forallb_skipn, split_ws_words.
      clearbody u. destruct u as [|w u'].
      * exists lines. cbn [join String.concat drop_blank]. change (blank "") with true. cbn iota.
        rewrite drop_solid by auto. auto.
      * exists (join " " (w :: u') :: lines).
        assert (Hb : blank (join " " (w :: u')) = false) by (apply (blank_row (w :: u')); [auto|discriminate]).
        cbn [app drop_blank]. rewrite Hb. split; [reflexivity|]. split; [constructor; auto|].
        cbn [flat_map]. rewrite split_ws_join by auto. exact F2.
Qed.
Lemma take_tokens_prefix lines rest ts1 ts2 : solid rest -> Forall (fun l => blank l = false) lines ->
  flat_map split_ws lines = ts1 ++ ts2 ->
  exists lines', take_tokens (length ts1) (lines ++ rest) = Some (ts1, lines' ++ rest) /\
    Forall (fun l => blank l = false) lines' /\ flat_map split_ws lines' = ts2.
Proof.
  intros Hr H E. destruct ts1 as [|t ts1]; [exists lines; auto|].
  apply (take_tokens_pos_prefix lines rest (t :: ts1) ts2); auto. discriminate.
Qed.

Section Ascii.
Context {fl : floats}.
Hypothesis Hfl : floats_ok fl.

Definition holds_ascii (s : list string) (items : list (item fl)) (rest : list string) : Prop :=
  exists lines, s = lines ++ rest /\ Forall (fun l => blank l = false) lines /\
    flat_map split_ws lines = map item_token items /\ solid rest.

Lemma word_item (i : item fl) : word (item_token i) = true.
Proof. destruct i; cbn; [apply word_str_of_Z|apply Hfl]. Qed.
Lemma words_items (l : list (item fl)) : forallb word (map item_token l) = true.
Proof. induction l; cbn [map forallb]; auto. now rewrite word_item. Qed.
Lemma put_ascii_solid rows rest : solid rest -> rows_ok (F := fl) rows -> solid (put_ascii rows ++ rest).
Proof.
  intros Hr H. destruct H as [|r rows [Hne _] H]; [exact Hr|]. apply solid_cons.
  apply blank_row; [apply words_items|]. destruct r; [congruence|discriminate].
Qed.
Lemma put_ascii_holds rows rest : solid rest -> rows_ok (F := fl) rows -> holds_ascii (put_ascii rows ++ rest) (concat rows) rest.
Proof.
  intros Hr H. exists (put_ascii rows). split; [reflexivity|]. split; [|split; [|exact Hr]].
  - unfold put_ascii. apply Forall_map. eapply Forall_impl; [|exact H]. intros r [Hne _].
    apply blank_row; [apply words_items|]. destruct r; [congruence|discriminate].
  - clear H. induction rows as [|r rows IH]; [reflexivity|]. cbn [put_ascii map flat_map concat]. rewrite map_app.
    unfold row_line at 1. rewrite split_ws_join by apply words_items. f_equal. exact IH.
Qed.
Lemma get_ints_ascii_ok k zs items s rest : holds_ascii s (map (Int k) zs ++ items) rest ->
  exists s', get_ints_ascii k (length zs) s = Ok (zs, s') /\ holds_ascii s' items rest.
Proof.
  intros (lines & -> & Hb & E & Hr). rewrite map_app, map_map in E. cbn [item_token] in E.
  destruct (take_tokens_prefix lines rest _ _ Hr Hb E) as (lines' & A & B & C).
  rewrite map_length in A. unfold get_ints_ascii. rewrite A. cbn [of_option bind fst snd].
  change (map (fun x => str_of_Z x) zs) with (map str_of_Z zs). rewrite parse_ints_ok. cbn [bind].
  eexists. split; [reflexivity|]. exists lines'. auto.
Qed.
Lemma get_floats_ascii_ok xs items s rest : holds_ascii s (map Dbl xs ++ items) rest ->
  exists s', get_floats_ascii (length xs) s = Ok (xs, s') /\ holds_ascii s' items rest.
Proof.
  intros (lines & -> & Hb & E & Hr). rewrite map_app, map_map in E. cbn [item_token] in E.
  destruct (take_tokens_prefix lines rest _ _ Hr Hb E) as (lines' & A & B & C).
  rewrite map_length in A. unfold get_floats_ascii. rewrite A. cbn [of_option bind fst snd].
  rewrite parse_floats_ok by auto. cbn [bind].
  eexists. split; [reflexivity|]. exists lines'. auto.
Qed.
Lemma blank_dollar t : blank (String "$" t) = false.
Proof.
  unfold blank. destruct (split_ws (String "$" t)) eqn:E; [|reflexivity]. exfalso.
  unfold split_ws in E. cbn [split_ws_acc] in E. change (is_space "$") with false in E. cbn iota in E.
  change ("" ++ String "$" "")%string with (String "$" "") in E.
  assert (G : forall s cur c, split_ws_acc (String c cur) s <> []).
  { induction s as [|a s IH]; intros cur c; cbn [split_ws_acc]; [discriminate|].
    destruct (is_space a); [discriminate|]. apply IH. }
  now apply G in E.
Qed.
Lemma section_line_ok t : word t = true -> section_line ("$" ++ t)%string = Ok t.
Proof. intros H. change (section_line ("$" ++ t)%string) with (@Ok string (strip t)). now rewrite strip_word. Qed.
Lemma next41_ok t rest : word t = true -> next41 (("$" ++ t)%string :: rest) = Ok (Some (t, rest)).
Proof.
  intros H. unfold next41. cbn [drop_blank]. change ("$" ++ t)%string with (String "$" t). rewrite blank_dollar. cbn iota.
  change (String "$" t) with ("$" ++ t)%string. rewrite section_line_ok by auto. reflexivity.
Qed.
Lemma next40_ok t rest : word t = true -> next40 (("$" ++ t)%string :: rest) = Ok (Some (t, rest)).
Proof. intros H. unfold next40. now rewrite section_line_ok. Qed.

Lemma names_nil : write_physical_names [] = [].
Proof. reflexivity. Qed.

(** The names that are read have different keys. *)
Lemma read_physical_names_NoDup ls r : read_physical_names [] ls = Ok r -> NoDup (dkeys (fst r)).
Proof.
  unfold read_physical_names. destruct (int_line (line1 ls)) as [n|]; [|discriminate]. cbn [bind].
  destruct (read_lines _ _ _) as [q|]; [|discriminate]. cbn [bind]. intros E. injection E as <-. cbn [fst].
  unfold dupdate. assert (G : forall (l d : dict (Z * Z)), NoDup (dkeys d) ->
    NoDup (dkeys (fold_left (fun acc kv => dset (fst kv) (snd kv) acc) l d))).
  { induction l as [|[k v] l IH]; intros d Hd; [exact Hd|]. cbn [fold_left]. apply IH. now apply NoDup_dset. }
  apply G. constructor.
Qed.

Lemma ascii_port_ok : port_ok (ascii_port (fl := fl)) solid holds_ascii.
Proof.
  constructor; cbn [ascii_port unt put get_ints get_floats opening closing text next_section next_section40 skip_end get_names
    put_data get_data put_header get_header].
  - apply put_ascii_holds.
  - intros k zs items s rest _. apply get_ints_ascii_ok.
  - apply get_floats_ascii_ok.
  - intros s rest (lines & -> & Hb & E & _). destruct lines as [|l lines]; [reflexivity|]. exfalso.
    inversion Hb as [|? ? Hl _]; subst. cbn in E. apply app_eq_nil in E. destruct E as [E _].
    apply blank_split in E. congruence.
  - apply put_ascii_solid.
  - intros t rest Ht _. apply solid_cons. now apply blank_word.
  - intros t rest Ht _. now apply skip_to_here.
  - reflexivity.
  - split; reflexivity.
  - intros t rest Ht _. split; [now apply next41_ok|]. split; [now apply next40_ok|]. split; [|discriminate].
    apply solid_cons. apply blank_dollar.
  - intros fd rest Hd Hp Hne Hr. destruct (physical_names_ok fd rest Hd Hp Hne) as (fd' & A & B & C).
    exists (tl (write_physical_names fd)), fd'.
    destruct (write_physical_names fd) as [|l ls] eqn:E; [discriminate|]. cbn [hd] in C. subst l.
    cbn [app tl] in *. split; [reflexivity|]. split; [exact A|]. split; [|split; [exact B|]].
    + destruct ls as [|l ls]; [exact Hr|]. apply solid_cons.
      assert (G : l = str_of_nat (length (sort_entries (map (fun kv => (snd (snd kv), fst (snd kv), fst kv)) fd)))).
      { unfold write_physical_names in E. destruct (sort_entries _) as [|e es]; [discriminate|]. now injection E as <-. }
      rewrite G. apply blank_word, word_str_of_nat.
    + apply (read_physical_names_NoDup _ _ A).
  - reflexivity.
  - intros tag name nc rows Ht Hte (Hn & _) Hnc Hr _.
    destruct (data_section_ok Hfl tag name nc rows [] [] Hte Hn Hnc Hr) as (body & A & _). exists body.
    split; [exact A|]. intros dd rest Hg.
    destruct (data_section_ok Hfl tag name nc rows dd rest Hte Hn Hnc Hr) as (body' & A' & B').
    rewrite A in A'. injection A' as <-. split; [exact B'|].
    unfold write_data in A. destruct (negb _); [discriminate|]. injection A as <-. now apply solid_cons.
  - intros v rest Hv _. unfold header_ascii, get_header_ascii, read_header. cbn [app].
    cbn [length skip_comments line1 hd]. rewrite (eq_refl : String.eqb (strip "$MeshFormat") "$Comments" = false).
    cbn iota. cbn [line1 hd tl]. rewrite (eq_refl : String.eqb (strip "$MeshFormat") "$MeshFormat" = true). cbn [negb].
    unfold row_line. rewrite split_ws_join.
    2: { cbn [forallb]. rewrite Hv. reflexivity. }
    rewrite (eq_refl : smem "0" ["0"; "1"] = true). cbn [negb].
    change (parse_Z "8") with (Some 8%Z). cbn [of_option bind].
    rewrite (eq_refl : String.eqb "0" "0" = true). rewrite skip_to_here by reflexivity. reflexivity.
Qed.
End Ascii.

(** ** Binary *)
Lemma to_lines_ne s : to_lines s <> [].
Proof. destruct s as [|b s]; cbn; [discriminate|]. destruct (N.eqb b 10); [discriminate|]. destruct (to_lines s); discriminate. Qed.
Lemma of_lines_cons l ls : ls <> [] -> of_lines (l :: ls) = string_bytes l ++ 10%N :: of_lines ls.
Proof. intros H. destruct ls; [congruence|reflexivity]. Qed.
Lemma of_to_lines s : Forall is_byte s -> of_lines (to_lines s) = s.
Proof.
  induction 1 as [|b s Hb H IH]; [reflexivity|]. cbn [to_lines]. destruct (N.eqb_spec b 10) as [->|Hne].
  - rewrite of_lines_cons by apply to_lines_ne. cbn. now rewrite IH.
  - destruct (to_lines s) as [|l ls] eqn:E; [now apply to_lines_ne in E|].
    destruct ls as [|l' ls].
    + cbn [of_lines string_bytes] in *. rewrite N_ascii_embedding by exact Hb. now rewrite IH.
    + rewrite of_lines_cons in * by discriminate. cbn [string_bytes app]. rewrite N_ascii_embedding by exact Hb. now rewrite IH.
Qed.
Lemma to_lines_line l s : one_line l -> to_lines (string_bytes l ++ 10%N :: s) = l :: to_lines s.
Proof.
  unfold one_line. induction l as [|c l IH]; intros H; [reflexivity|]. cbn [char_in] in H. apply orb_false_iff in H.
  destruct H as [Hc H]. cbn [string_bytes app to_lines]. rewrite IH by auto.
  destruct (N.eqb_spec (N_of_ascii c) 10) as [E|_].
  - exfalso. assert (c = newline) by (rewrite <- (ascii_N_embedding c), E; reflexivity). subst c. discriminate.
  - now rewrite ascii_N_embedding.
Qed.
Lemma to_lines_text ls s : Forall one_line ls -> to_lines (text_bytes ls ++ s) = ls ++ to_lines s.
Proof.
  induction 1 as [|l ls Hl H IH]; [reflexivity|]. unfold text_bytes in *. cbn [map concat]. rewrite <- !app_assoc. cbn [app].
  rewrite to_lines_line by auto. now rewrite IH.
Qed.
Lemma N_of_ascii_byte c : is_byte (N_of_ascii c).
Proof. destruct c as [[] [] [] [] [] [] [] []]; reflexivity. Qed.
Lemma string_bytes_byte l : Forall is_byte (string_bytes l).
Proof. induction l; cbn; constructor; auto. apply N_of_ascii_byte. Qed.
Lemma text_bytes_byte ls : Forall is_byte (text_bytes ls).
Proof.
  unfold text_bytes. induction ls as [|l ls IH]; [constructor|]. cbn [map concat]. rewrite <- app_assoc, !Forall_app. split; [apply string_bytes_byte|].
  split; [|exact IH]. constructor; [reflexivity|constructor].
Qed.
Lemma Forall_concat_bytes (l : list bytes) : Forall (Forall is_byte) l -> Forall is_byte (concat l).
Proof. induction 1; cbn; [constructor|]. apply Forall_app. auto. Qed.
Lemma by_lines_ok {A} (f : list string -> result (A * list string)) ls s x : Forall one_line ls -> Forall is_byte s ->
  f (ls ++ to_lines s) = Ok (x, to_lines s) -> by_lines f (text_bytes ls ++ s) = Ok (x, s).
Proof. intros Hl Hs E. unfold by_lines. rewrite to_lines_text by auto. rewrite E. cbn. now rewrite of_to_lines. Qed.
Lemma one_line_join ts : Forall one_line ts -> one_line (row_line ts).
Proof.
  unfold row_line, join. induction 1 as [|t ts Ht H IH]; cbn [String.concat]; [reflexivity|]. destruct ts; [exact Ht|].
  apply one_line_app; [exact Ht|]. apply one_line_app; [reflexivity|exact IH].
Qed.
Lemma one_line_quoted s : plain_name s -> one_line (quoted s).
Proof. intros (_ & _ & H). unfold quoted. apply (one_line_app (String dq s)); [|reflexivity]. unfold one_line. cbn [char_in]. exact H. Qed.
Lemma one_line_Z z : one_line (str_of_Z z).
Proof. apply char_in_newline_word. apply (word_no_space _ (word_str_of_Z z)). Qed.
Lemma one_line_nat n : one_line (str_of_nat n).
Proof. apply char_in_newline_word. apply (word_no_space _ (word_str_of_nat n)). Qed.
Lemma one_line_word w : word w = true -> one_line w.
Proof. intros H. apply char_in_newline_word. apply (word_no_space _ H). Qed.
Lemma names_one_line fd : Forall plain_name (dkeys fd) -> Forall one_line (write_physical_names fd).
Proof.
  intros Hp. unfold write_physical_names.
  change (map (fun kv => (snd (snd kv), fst (snd kv), fst kv)) fd) with (map to_entry fd).
  assert (Hpe : Forall (fun e : entry => plain_name (snd e)) (sort_entries (map to_entry fd))).
  { apply Forall_forall. intros e He. apply (proj1 (sort_entries_In _ _)) in He. apply in_map_iff in He.
    destruct He as (kv & <- & Hin). cbn. rewrite Forall_forall in Hp. apply Hp. unfold dkeys. now apply in_map. }
  destruct (sort_entries _) as [|e es]; [constructor|]. apply Forall_app. split.
  - constructor; [reflexivity|]. constructor; [apply one_line_nat|constructor].
  - apply Forall_app. split; [|constructor; [reflexivity|constructor]]. apply Forall_map.
    eapply Forall_impl; [|exact Hpe]. intros [[d n] s] Hs. apply one_line_join.
    constructor; [apply one_line_Z|]. constructor; [apply one_line_Z|]. constructor; [now apply one_line_quoted|constructor].
Qed.

Section Binary.
Context {F : Type} (c8 : codec F).
Hypothesis Hc : codec_ok c8.

Lemma capacity4 : capacity 4 = (2 ^ 32)%N. Proof. reflexivity. Qed.
Lemma capacity8 : capacity 8 = (2 ^ 64)%N. Proof. reflexivity. Qed.
Lemma int_roundtrip k z : in_range k z -> int_of_bytes k (int_bytes k z) = z.
Proof.
  intros H. destruct k; unfold int_of_bytes, int_bytes, int_width; cbn [in_range] in H.
  - apply sint_value_bytes. unfold sint_range. rewrite capacity4. lia.
  - unfold sint_bytes. rewrite capacity8. rewrite uint_value_bytes.
    + rewrite Z2N.id by (apply Z.mod_pos_bound; reflexivity). apply Z.mod_small. lia.
    + rewrite capacity8. pose proof (Z.mod_pos_bound z (Z.of_N (2 ^ 64))). lia.
  - apply sint_value_bytes. unfold sint_range. rewrite capacity8. lia.
Qed.
Lemma int_bytes_length k z : length (int_bytes k z) = int_width k.
Proof. apply sint_bytes_length. Qed.
Lemma int_bytes_byte k z : Forall is_byte (int_bytes k z).
Proof. apply sint_bytes_ok. Qed.
Lemma item_bytes_byte (i : item F) : Forall is_byte (item_bytes c8 i).
Proof. destruct i; [apply int_bytes_byte|apply Hc]. Qed.

Lemma take_items_ok w items rest : 0 < w -> Forall (fun x => length x = w) items ->
  take_items w (length items) (concat items ++ rest) = (items, rest).
Proof.
  intros Hw H. unfold take_items.
  assert (L : length (concat items) = length items * w) by (rewrite (concat_uniform_length w) by auto; lia).
  assert (M : Nat.min (length items) (length (concat items ++ rest) / w) = length items).
  { apply Nat.min_l. apply Nat.div_le_lower_bound; [lia|]. rewrite app_length. lia. }
  rewrite M, <- L. rewrite firstn_app, Nat.sub_diag, firstn_all, skipn_app, Nat.sub_diag, skipn_all. cbn [firstn skipn app].
  rewrite app_nil_r. now rewrite chunks_concat.
Qed.

Definition holds_binary (s : bytes) (items : list (item F)) (rest : bytes) : Prop :=
  s = concat (map (item_bytes c8) items) ++ rest.

Lemma get_ints_binary_ok k zs items s rest : Forall (in_range k) zs -> holds_binary s (map (Int k) zs ++ items) rest ->
  exists s', get_ints_binary k (length zs) s = Ok (zs, s') /\ holds_binary s' items rest.
Proof.
  intros H ->. eexists. split; [|reflexivity]. rewrite map_app, concat_app, <- app_assoc, map_map. cbn [item_bytes].
  unfold get_ints_binary. rewrite <- (map_length (int_bytes k) zs).
  rewrite take_items_ok.
  - cbn [fst snd]. rewrite map_map. f_equal. f_equal. apply map_id_in. intros z Hz. apply int_roundtrip.
    rewrite Forall_forall in H. auto.
  - destruct k; cbn; lia.
  - apply Forall_map, Forall_forall. intros; apply int_bytes_length.
Qed.
Lemma get_floats_binary_ok xs items s rest : holds_binary s (map Dbl xs ++ items) rest ->
  exists s', get_floats_binary c8 (length xs) s = Ok (xs, s') /\ holds_binary s' items rest.
Proof.
  intros ->. eexists. split; [|reflexivity]. rewrite map_app, concat_app, <- app_assoc, map_map. cbn [item_bytes].
  unfold get_floats_binary. rewrite <- (map_length (enc c8) xs).
  rewrite take_items_ok.
  - cbn [fst snd]. rewrite map_map. f_equal. f_equal. apply map_id_in. intros z Hz. apply Hc.
  - lia.
  - apply Forall_map, Forall_forall. intros; apply Hc.
Qed.

Lemma put_binary_byte rows : Forall is_byte (put_binary c8 rows).
Proof.
  unfold put_binary. apply Forall_concat_bytes, Forall_map, Forall_forall. intros; apply item_bytes_byte.
Qed.
Lemma closing_byte t : Forall is_byte (closing_binary t).
Proof. constructor; [reflexivity|apply text_bytes_byte]. Qed.

Lemma skip_end_ok t rest : word (end_line t) = true -> Forall is_byte rest -> skip_end_binary t (closing_binary t ++ rest) = rest.
Proof.
  intros Ht Hr. unfold skip_end_binary, closing_binary. cbn [app to_lines].
  change (N.eqb 10 10) with true. cbn iota.
  rewrite to_lines_text by (constructor; [now apply one_line_word|constructor]).
  cbn [app skip_to]. assert (E : String.eqb (strip "") (end_line t) = false) by reflexivity.
  rewrite E. change (skip_to (end_line t) (end_line t :: to_lines rest)) with (if String.eqb (strip (end_line t)) (end_line t) then to_lines rest else skip_to (end_line t) (to_lines rest)).
  rewrite strip_word by auto. rewrite String.eqb_refl. now apply of_to_lines.
Qed.

Lemma dollar_one_line t : word t = true -> one_line ("$" ++ t)%string.
Proof. intros H. apply (one_line_app "$"); [reflexivity|]. now apply one_line_word. Qed.

Lemma data_header_read name nc n rest : plain_name name ->
  read_data_header (tl (data_header "" name nc n) ++ rest) = Ok ((name, Z.of_nat nc, Z.of_nat n), rest).
Proof.
  intros (Hn & _). unfold read_data_header, data_header. cbn [tl app line1 hd].
  change (int_line "1") with (@Ok Z 1%Z). cbn [bind]. change (Z.to_nat 1) with 1.
  cbn [read_lines line1 hd tl bind fst snd].
  change (int_line "1") with (@Ok Z 1%Z). cbn [bind]. change (Z.to_nat 1) with 1.
  cbn [read_lines line1 hd tl bind fst snd].
  change (int_line "3") with (@Ok Z 3%Z). cbn [bind]. change (Z.to_nat 3) with 3.
  cbn [read_lines line1 hd tl bind fst snd].
  change (int_line "0") with (@Ok Z 0%Z). cbn [bind].
  rewrite !int_line_nat. cbn [bind fst snd nth_error of_option hd_error]. now rewrite unquote_quoted.
Qed.

Definition record_bytes (kr : nat * list F) : bytes := int_bytes CInt (Z.of_nat (fst kr + 1)) ++ concat (map (enc c8) (snd kr)).
Lemma record_byte kr : Forall is_byte (record_bytes kr).
Proof.
  unfold record_bytes. apply Forall_app. split; [apply int_bytes_byte|]. apply Forall_concat_bytes, Forall_map, Forall_forall.
  intros; apply Hc.
Qed.
Lemma record_index kr : in_range CInt (Z.of_nat (fst kr + 1)) ->
  int_of_bytes CInt (firstn 4 (record_bytes kr)) = Z.of_nat (fst kr + 1).
Proof.
  intros H. unfold record_bytes. rewrite firstn_app. pose proof (int_bytes_length CInt (Z.of_nat (fst kr + 1))) as L. cbn [int_width] in L.
  rewrite L, Nat.sub_diag. rewrite firstn_all2 by lia. cbn [firstn]. rewrite app_nil_r. now apply int_roundtrip.
Qed.
Lemma record_values kr : map (dec c8) (chunks 8 (skipn 4 (record_bytes kr))) = snd kr.
Proof.
  unfold record_bytes. rewrite skipn_app. pose proof (int_bytes_length CInt (Z.of_nat (fst kr + 1))) as L. cbn [int_width] in L.
  rewrite L, Nat.sub_diag. rewrite skipn_all2 by lia. cbn [skipn app].
  rewrite chunks_concat; [|lia|apply Forall_map, Forall_forall; intros; apply Hc].
  rewrite map_map. apply map_id_in. intros; apply Hc.
Qed.
Lemma enumerate_In {A} (l : list A) k x : In (k, x) (enumerate l) -> k < length l /\ In x l.
Proof.
  unfold enumerate. intros H. split; [|now apply in_combine_r in H]. apply in_combine_l in H. apply in_seq in H. lia.
Qed.
Lemma enumerate_fst {A} (l : list A) : map fst (enumerate l) = seq 0 (length l).
Proof. unfold enumerate. generalize 0. induction l as [|x l IH]; intros k; cbn; auto. now rewrite IH. Qed.
Lemma index_check n : forallb (fun kz => Z.eqb (snd kz) (Z.of_nat (fst kz + 1))) (enumerate (map (fun k => Z.of_nat (k + 1)) (seq 0 n))) = true.
Proof.
  apply forallb_forall. intros [k z] H. unfold enumerate in H. rewrite map_length, seq_length in H.
  cbn [fst snd]. apply Z.eqb_eq.
  assert (G : forall n s, In (k, z) (combine (seq s n) (map (fun k => Z.of_nat (k + 1)) (seq s n))) -> z = Z.of_nat (k + 1)).
  { clear. induction n as [|n IH]; intros s H; [destruct H|]. cbn in H. destruct H as [E|H]; [congruence|eauto]. }
  eapply G; eauto.
Qed.

Lemma data_binary_ok tag name nc rows : word tag = true -> word (end_line tag) = true -> plain_name name ->
  In nc [1; 3; 9] -> Forall (fun r : list F => length r = nc) rows -> (Z.of_nat (length rows) < 2 ^ 31 - 1)%Z ->
  exists u, put_data_binary c8 tag name nc rows = Ok (text_bytes [("$" ++ tag)%string] ++ u) /\
    forall dd rest, Forall is_byte rest ->
      get_data_binary c8 tag dd (u ++ rest) = Ok (dset name rows dd, rest) /\ Forall is_byte (u ++ rest).
Proof.
  intros Ht Hte Hn Hnc Hr Hl. unfold put_data_binary.
  assert (E : negb (Nat.eqb nc 1 || Nat.eqb nc 3 || Nat.eqb nc 9) = false)
    by (destruct Hnc as [<-|[<-|[<-|[]]]]; reflexivity). rewrite E.
  exists (text_bytes (tl (data_header tag name nc (length rows))) ++ concat (map record_bytes (enumerate rows)) ++ closing_binary tag).
  split.
  { unfold data_header. cbn [tl]. f_equal. rewrite !app_assoc. f_equal. f_equal. unfold text_bytes. cbn [map concat].
    rewrite !app_nil_r. reflexivity. }
  intros dd rest Hg.
  assert (G1 : Forall is_byte (concat (map record_bytes (enumerate rows)) ++ closing_binary tag ++ rest)).
  { apply Forall_app. split; [apply Forall_concat_bytes, Forall_map, Forall_forall; intros; apply record_byte|].
    apply Forall_app. split; [apply closing_byte|exact Hg]. }
  split.
  2: { rewrite <- !app_assoc. apply Forall_app. split; [apply text_bytes_byte|exact G1]. }
  unfold get_data_binary. rewrite <- !app_assoc.
  rewrite (by_lines_ok read_data_header) with (x := (name, Z.of_nat nc, Z.of_nat (length rows))).
  - cbn [bind fst snd]. rewrite !Nat2Z.id.
    assert (Hw : Forall (fun x => length x = 4 + 8 * nc) (map record_bytes (enumerate rows))).
    { apply Forall_map, Forall_forall. intros [k r] Hin. apply enumerate_In in Hin. destruct Hin as [_ Hin].
      unfold record_bytes. cbn [fst snd]. rewrite app_length, int_bytes_length.
      rewrite (concat_uniform_length 8) by (apply Forall_map, Forall_forall; intros; apply Hc).
      rewrite map_length. rewrite Forall_forall in Hr. rewrite (Hr r Hin). reflexivity. }
    assert (T : take_items (4 + 8 * nc) (length rows) (concat (map record_bytes (enumerate rows)) ++ closing_binary tag ++ rest) =
                (map record_bytes (enumerate rows), closing_binary tag ++ rest)).
    { rewrite <- (take_items_ok (4 + 8 * nc) _ (closing_binary tag ++ rest)) with (2 := Hw) by lia.
      now rewrite map_length, enumerate_length. }
    rewrite T. cbn [fst snd].
    assert (I : map (fun b => int_of_bytes CInt (firstn 4 b)) (map record_bytes (enumerate rows)) =
                map (fun k => Z.of_nat (k + 1)) (seq 0 (length rows))).
    { rewrite <- enumerate_fst, !map_map. apply map_ext_in. intros [k r] Hin. apply record_index.
      apply enumerate_In in Hin. cbn [in_range fst]. lia. }
    rewrite I, index_check. rewrite map_length, seq_length, Nat.eqb_refl. cbn [andb].
    rewrite map_map. rewrite (map_ext _ snd) by (intros; apply record_values). rewrite enumerate_snd.
    now rewrite skip_end_ok.
  - unfold data_header. cbn [tl]. repeat (constructor; [first [reflexivity | apply one_line_nat | now apply one_line_quoted]|]). constructor.
  - exact G1.
  - rewrite <- (data_header_read name nc (length rows)) by auto. reflexivity.
Qed.

Lemma next_binary_ok f t rest : word t = true -> Forall is_byte rest ->
  f (("$" ++ t)%string :: to_lines rest) = Ok (Some (t, to_lines rest)) ->
  next_binary f (text_bytes [("$" ++ t)%string] ++ rest) = Ok (Some (t, rest)).
Proof.
  intros Ht Hr E. unfold next_binary. rewrite to_lines_text by (constructor; [now apply dollar_one_line|constructor]).
  cbn [app]. rewrite E. cbn. now rewrite of_to_lines.
Qed.

Lemma binary_port_ok : port_ok (binary_port c8) (Forall is_byte) holds_binary.
Proof.
  constructor; cbn [binary_port unt put get_ints get_floats opening closing text next_section next_section40 skip_end get_names
    put_data get_data put_header get_header].
  - intros rows rest _ _. reflexivity.
  - apply get_ints_binary_ok.
  - apply get_floats_binary_ok.
  - intros s rest ->. reflexivity.
  - intros rows rest Hr _. apply Forall_app. split; [apply put_binary_byte|exact Hr].
  - intros t rest _ Hr. apply Forall_app. split; [apply closing_byte|exact Hr].
  - apply skip_end_ok.
  - constructor.
  - split; reflexivity.
  - intros t rest Ht Hr. split; [|split; [|split]].
    + apply next_binary_ok; auto. now apply next41_ok.
    + assert (E : forall s, s <> [] -> next40_binary s = next_binary next40 s) by (intros [|b s]; [congruence|reflexivity]).
      rewrite E by (cbn; discriminate). apply next_binary_ok; auto. now apply next40_ok.
    + apply Forall_app. split; [apply text_bytes_byte|exact Hr].
    + cbn. discriminate.
  - intros fd rest Hd Hp Hne Hr. destruct (physical_names_ok fd (to_lines rest) Hd Hp Hne) as (fd' & A & B & C).
    exists (text_bytes (tl (write_physical_names fd))), fd'.
    pose proof (names_one_line fd Hp) as Ho.
    destruct (write_physical_names fd) as [|l ls] eqn:E; [discriminate|]. cbn [hd] in C. subst l.
    cbn [app tl] in *. inversion Ho as [|? ? _ Ho']; subst. split; [|split; [|split; [|split; [exact B|]]]].
    + unfold text_bytes. cbn [map concat]. rewrite app_nil_r. reflexivity.
    + now apply by_lines_ok.
    + apply Forall_app. split; [apply text_bytes_byte|exact Hr].
    + apply (read_physical_names_NoDup _ _ A).
  - reflexivity.
  - apply data_binary_ok.
  - intros v rest Hv Hr. unfold header_binary, get_header_binary. rewrite <- !app_assoc.
    assert (G : Forall is_byte (int_bytes CInt 1 ++ closing_binary "MeshFormat" ++ rest)).
    { apply Forall_app. split; [apply int_bytes_byte|]. apply Forall_app. split; [apply closing_byte|exact Hr]. }
    rewrite (by_lines_ok header_line) with (x := v); auto.
    + cbn [bind fst snd].
      destruct (get_ints_binary_ok CInt [1%Z] [] (int_bytes CInt 1 ++ closing_binary "MeshFormat" ++ rest)
                  (closing_binary "MeshFormat" ++ rest)) as (s' & A & B).
      * constructor; [cbn; lia|constructor].
      * unfold holds_binary. cbn [map item_bytes concat app]. now rewrite app_nil_r.
      * cbn [length] in A. rewrite A. cbn [bind fst snd]. unfold holds_binary in B. cbn [map concat app] in B. subst s'.
        now rewrite skip_end_ok.
    + constructor; [reflexivity|]. constructor; [|constructor]. apply one_line_row. cbn [forallb]. rewrite Hv. reflexivity.
    + unfold header_line. cbn [app line1 hd tl]. rewrite (eq_refl : String.eqb (strip "$MeshFormat") "$MeshFormat" = true). cbn [negb].
      unfold row_line. rewrite split_ws_join.
      2: { cbn [forallb]. rewrite Hv. reflexivity. }
      rewrite (eq_refl : smem "1" ["0"; "1"] = true). cbn [negb].
      change (parse_Z "8") with (Some 8%Z). cbn [of_option bind]. reflexivity.
Qed.
End Binary.
