(** Lemmas about Nastran files (C44). *)
From Coq Require Import Lia ZArith NArith.
From Verif.Lib Require Import Base Facts Facts2 Text TextFacts Lines LinesFacts Hex BytesFacts.
From Verif.Model Require Import Core Tables Abaqus Snoc Nastran.
From Verif.Spec Require Import Core Blocks Nastran.
From Verif.Proofs Require Import XdmfFile Core Blocks Snoc Mdpa Abaqus AbaqusLines Gmsh Gmsh22 NetgenFile.
Import Model.Nastran Spec.Nastran.

Local Arguments str_of_Z : simpl never.
Local Arguments str_of_nat : simpl never.
Local Arguments hex_of_Z : simpl never.
Local Open Scope nat_scope.

(** ** Digits *)
Lemma length_app a b : String.length (a ++ b)%string = String.length a + String.length b.
Proof. induction a; cbn; auto. Qed.
Lemma dec_length f n acc k : (n < 10 ^ N.of_nat (S k))%N -> String.length (dec_digits f n acc) <= S k + String.length acc.
Proof.
  revert n acc k; induction f as [|f IH]; intros n acc k H; cbn [dec_digits]; [lia|]. destruct (N.ltb_spec n 10) as [L|L]; [cbn; lia|].
  destruct k as [|k]; [cbn in H; lia|]. etransitivity; [apply (IH (n / 10)%N _ k)|cbn; lia].
  apply N.div_lt_upper_bound; [lia|]. rewrite <- N.pow_succ_r'. rewrite <- Nat2N.inj_succ. exact H.
Qed.
Lemma str_of_N_length n k : (n < 10 ^ N.of_nat (S k))%N -> String.length (str_of_N n) <= S k.
Proof. intros H. unfold str_of_N. etransitivity; [eapply dec_length; exact H|cbn; lia]. Qed.
Lemma hex_length f n acc k : (n < 16 ^ N.of_nat (S k))%N -> String.length (hex_digits f n acc) <= S k + String.length acc.
Proof.
  revert n acc k; induction f as [|f IH]; intros n acc k H; cbn [hex_digits]; [lia|]. destruct (N.ltb_spec n 16) as [L|L]; [cbn; lia|].
  destruct k as [|k]; [cbn in H; lia|]. etransitivity; [apply (IH (n / 16)%N _ k)|cbn; lia].
  apply N.div_lt_upper_bound; [lia|]. rewrite <- N.pow_succ_r'. rewrite <- Nat2N.inj_succ. exact H.
Qed.
Lemma hex_of_Z_length z k : (0 <= z < 16 ^ Z.of_nat (S k))%Z -> String.length (hex_of_Z z) <= S k.
Proof.
  intros H. destruct z as [|p|p]; [unfold hex_of_Z; cbn; lia| |lia]. unfold hex_of_Z, hex_of_N. etransitivity; [eapply (hex_length _ _ _ k)|cbn; lia].
  apply N2Z.inj_lt. rewrite N2Z.inj_pow. rewrite nat_N_Z. cbn [Z.of_N]. lia.
Qed.
Lemma str_of_Z_length w z : 2 <= w -> int_fits w z -> String.length (str_of_Z z) <= w.
Proof.
  intros Hw H. unfold int_fits in H. destruct w as [|[|k]]; try lia. destruct z as [|p|p].
  - unfold str_of_Z. cbn. lia.
  - unfold str_of_Z. apply (str_of_N_length _ (S k)). apply N2Z.inj_lt. rewrite N2Z.inj_pow, nat_N_Z. cbn [Z.of_N]. lia.
  - unfold str_of_Z. cbn [String.length]. apply le_n_S. apply (str_of_N_length _ k). apply N2Z.inj_lt. rewrite N2Z.inj_pow, nat_N_Z. cbn [Z.of_N].
    replace (Z.of_nat (S (S k)) - 1)%Z with (Z.of_nat (S k)) in H by lia. lia.
Qed.
Lemma str_of_nat_length n k : (Z.of_nat n < 10 ^ Z.of_nat (S k))%Z -> String.length (str_of_nat n) <= S k.
Proof. intros H. unfold str_of_nat. apply str_of_N_length. apply N2Z.inj_lt. rewrite N2Z.inj_pow, !nat_N_Z. exact H. Qed.

(** ** Fields of eight characters *)
Definition cat (l : list string) : string := String.concat "" l.
Lemma cat_cons x l : cat (x :: l) = (x ++ cat l)%string.
Proof. destruct l; cbn [cat String.concat]; [now rewrite str_app_nil_r|reflexivity]. Qed.
Lemma cat_app a b : cat (a ++ b) = (cat a ++ cat b)%string.
Proof. induction a as [|x a IH]; [reflexivity|]. cbn [app]. rewrite !cat_cons, IH. now rewrite str_app_assoc. Qed.
Lemma list_app a b : list_ascii_of_string (a ++ b)%string = list_ascii_of_string a ++ list_ascii_of_string b.
Proof. induction a as [|c a IH]; [reflexivity|]. cbn. now rewrite IH. Qed.
Lemma list_cat l : list_ascii_of_string (cat l) = concat (map list_ascii_of_string l).
Proof. induction l as [|x l IH]; [reflexivity|]. rewrite cat_cons, list_app, IH. reflexivity. Qed.
Lemma list_length s : length (list_ascii_of_string s) = String.length s.
Proof. induction s; cbn; auto. Qed.
Lemma char_cat c l : char_in c (cat l) = existsb (char_in c) l.
Proof. induction l as [|x l IH]; [reflexivity|]. rewrite cat_cons, char_in_app, IH. reflexivity. Qed.
(** A field of w characters without commas *)
Definition fieldw (w : nat) (s : string) : Prop := String.length s = w /\ char_in "," s = false.
Lemma chunk_fixed l : Forall (fieldw 8) l -> chunk_line (cat l) = l.
Proof.
  intros H. unfold chunk_line. rewrite char_cat.
  assert (E : existsb (char_in ",") l = false) by (induction H as [|x l (_ & H) _ IH]; [reflexivity|]; cbn [existsb]; now rewrite H, IH). rewrite E.
  rewrite list_cat, chunks_concat; [|lia|apply Forall_map; eapply Forall_impl; [|exact H]; intros s (Hs & _); now rewrite list_length].
  rewrite map_map. rewrite <- (map_id l) at 2. apply map_ext. apply string_of_list_ascii_of_string.
Qed.
Lemma blanks_spaces n : blanks n = Spec.Abaqus.spaces n.
Proof. reflexivity. Qed.
Lemma length_blanks n : String.length (blanks n) = n.
Proof. unfold blanks. change (String.concat "" (repeat " " n)) with (cat (repeat " " n)). induction n as [|n IH]; [reflexivity|]. cbn [repeat]. rewrite cat_cons, length_app, IH. reflexivity. Qed.
Lemma comma_blanks n : char_in "," (blanks n) = false.
Proof. rewrite blanks_spaces. apply char_in_spaces. reflexivity. Qed.
Lemma pad_right_field w s : String.length s <= w -> char_in "," s = false -> fieldw w (pad_right w s).
Proof. intros H Hc. unfold pad_right. split; [rewrite length_app, length_blanks; lia|]. now rewrite char_in_app, Hc, comma_blanks. Qed.
Lemma pad_left_field w s : String.length s <= w -> char_in "," s = false -> fieldw w (pad_left w s).
Proof. intros H Hc. unfold pad_left. split; [rewrite length_app, length_blanks; lia|]. now rewrite char_in_app, Hc, comma_blanks. Qed.
Definition plain_text (s : string) : Prop := s = "" \/ word s = true.
Lemma strip_blanks n : strip (blanks n) = "".
Proof. rewrite blanks_spaces. apply strip_spaces. Qed.
Lemma rstrip_blanks_word s n : no_space s = true -> rstrip (s ++ blanks n)%string = s.
Proof.
  intros H. induction s as [|a s IH].
  - cbn [append]. rewrite blanks_spaces. pose proof (strip_spaces n) as E. unfold strip in E.
    clear. induction n as [|n IH]; [reflexivity|]. rewrite AbaqusLines.spaces_S. cbn [rstrip]. now rewrite IH.
  - cbn [no_space] in H. apply andb_true_iff in H. destruct H as (Ha & Hs). cbn [append rstrip]. rewrite (IH Hs). destruct s as [|b s]; [|reflexivity]. destruct (is_space a); [discriminate|reflexivity].
Qed.
Lemma strip_pad_right w s : plain_text s -> strip (pad_right w s) = s.
Proof.
  intros [->|H]; unfold pad_right; [apply strip_blanks|]. unfold strip. rewrite (word_lstrip s _ H). apply rstrip_blanks_word. now apply word_no_space.
Qed.
Lemma strip_pad_left w s : plain_text s -> strip (pad_left w s) = s.
Proof.
  intros [->|H]; unfold pad_left; [rewrite str_app_nil_r; apply strip_blanks|]. unfold strip. rewrite blanks_spaces, lstrip_spaces.
  assert (E := strip_word s H). unfold strip in E. exact E.
Qed.
(** Sixteen characters: two fields of eight *)
Definition half1 (s : string) : string := string_of_list_ascii (firstn 8 (list_ascii_of_string s)).
Definition half2 (s : string) : string := string_of_list_ascii (skipn 8 (list_ascii_of_string s)).
Lemma of_list_app a b : string_of_list_ascii (a ++ b) = (string_of_list_ascii a ++ string_of_list_ascii b)%string.
Proof. induction a as [|c a IH]; [reflexivity|]. cbn. now rewrite IH. Qed.
Lemma of_list_length l : String.length (string_of_list_ascii l) = length l.
Proof. induction l; cbn; auto. Qed.
Lemma halves s : (half1 s ++ half2 s)%string = s.
Proof. unfold half1, half2. rewrite <- of_list_app, firstn_skipn. apply string_of_list_ascii_of_string. Qed.
Lemma halves_field s : fieldw 16 s -> fieldw 8 (half1 s) /\ fieldw 8 (half2 s).
Proof.
  intros (L & C). rewrite <- (halves s), char_in_app in C. apply orb_false_iff in C. destruct C as (C1 & C2). rewrite <- list_length in L.
  split; split; auto; unfold half1, half2; rewrite of_list_length; [rewrite firstn_length|rewrite skipn_length]; lia.
Qed.

(** ** Lines and cards *)
Definition heads (a : ascii) (l : string) : Prop := exists l', l = String a l'.
Lemma starts_head a l c p : heads a l -> a <> c -> startswith l (String c p) = false.
Proof. intros (l' & ->) H. unfold startswith. cbn [prefix]. destruct (ascii_dec c a); [congruence|reflexivity]. Qed.
Lemma starts_same a l : heads a l -> startswith l (String a "") = true.
Proof. intros (l' & ->). unfold startswith. cbn [prefix]. destruct (ascii_dec a a); [|congruence]. now destruct l'. Qed.
Lemma not_skipped a l : heads a l -> 3 <= String.length l -> a <> "$"%char -> a <> "/"%char -> a <> "#"%char -> skipped l = false.
Proof.
  intros H L A B C. unfold skipped. rewrite !(starts_head a l) by auto. destruct (Nat.ltb_spec (String.length l) 3); [lia|reflexivity].
Qed.
(** The lines of a card: the fields of every line *)
Definition card_rows (rows : list (list string)) : list row * row :=
  match rows with
  | [] => ([], [])
  | r :: rs => fold_left (fun C l => (fst C ++ [unflagged (snd C)], marked (map Some l))) rs ([], map Some r)
  end.
Definition line_of (l : string) (r : list string) : Prop := skipped l = false /\ chunk_line l = r.
Definition is_cont (l : string) : Prop := heads "+" l \/ heads "*" l.
Definition is_head (l : string) : Prop := exists a, heads a l /\ a <> "+"%char /\ a <> "*"%char /\ a <> "E"%char.
(** A card in a file: its lines and their fields *)
Record card_in (ls : list string) (rows : list (list string)) : Prop := {
  ci_first : exists l ls', ls = l :: ls' /\ is_head l /\ Forall is_cont ls';
  ci_rows : Forall2 line_of ls rows;
  ci_long : Forall (fun r => length r <= 10) (butlast rows);
  ci_last : length (last rows []) <> 10 }.
Section Nastran.
Context {fl : floats}.
Variable ffix : fl -> string.
Definition closed (C : list row * row) : Prop := length (snd C) <> 10.
Lemma continued_cont C l r : is_cont l -> line_of l r -> length (snd C) <= 10 -> continued C l = Ok (Some (fst C ++ [unflagged (snd C)], marked (map Some r))).
Proof.
  intros H (_ & Hr) Hl. destruct C as [pre last]. cbn [fst snd] in *. unfold continued, row_of. rewrite Hr.
  assert (E : startswith l "+" || startswith l "*" = true) by (destruct H as [H|H]; [rewrite (starts_same "+" l H)|rewrite (starts_same "*" l H), orb_true_r]; reflexivity).
  rewrite E. destruct (Nat.ltb_spec 10 (length last)); [lia|reflexivity].
Qed.
Lemma continued_head C l : is_head l -> closed C -> continued C l = Ok None.
Proof.
  intros (a & Ha & N1 & N2 & _) Hc. destruct C as [pre last]. unfold closed in Hc. cbn [snd] in Hc. unfold continued. rewrite !(starts_head a l) by auto. cbn [orb].
  destruct (Nat.eqb_spec (length last) 10); [contradiction|reflexivity].
Qed.
Lemma continued_end C : closed C -> continued C "ENDDATA" = Ok None.
Proof.
  intros Hc. destruct C as [pre last]. unfold closed in Hc. cbn [snd] in Hc. unfold continued. change (startswith "ENDDATA" "+" || startswith "ENDDATA" "*") with false. cbv iota.
  destruct (Nat.eqb_spec (length last) 10); [contradiction|reflexivity].
Qed.
Definition more (C : list row * row) (l : list string) : list row * row := (fst C ++ [unflagged (snd C)], marked (map Some l)).
Lemma marked_length r : length (marked r) = length r.
Proof. destruct r; reflexivity. Qed.
Lemma read_conts conts rows : Forall2 line_of conts rows -> Forall is_cont conts -> forall C (s : @nas_state fl) rest,
  Forall (fun n => n <= 10) (butlast (length (snd C) :: map (@length string) rows)) ->
  read_cards C s (conts ++ rest) = read_cards (fold_left more rows C) s rest.
Proof.
  induction 1 as [|l r conts rows Hl _ IH]; intros Hc C s rest H; [reflexivity|]. inversion Hc as [|? ? Hc1 Hc2]; subst. cbn [app read_cards fold_left].
  rewrite (proj1 Hl). cbn [map butlast] in H. inversion H as [|? ? H1 H2]; subst. rewrite (continued_cont C l r Hc1 Hl H1). cbn [bind]. apply IH; auto.
  cbn [more snd]. rewrite marked_length, map_length. exact H2.
Qed.
Lemma last_more rows : forall C, length (snd (fold_left more rows C)) = length (last rows (repeat "" (length (snd C)))).
Proof.
  induction rows as [|r rows IH]; intros C; [cbn; now rewrite repeat_length|]. cbn [fold_left]. rewrite IH. cbn [more snd]. rewrite marked_length, map_length.
  destruct rows as [|r2 rows]; [cbn [last]; now rewrite repeat_length|]. cbn [last]. clear. revert r2. induction rows as [|r3 rows IH]; intros r2; [reflexivity|]. apply IH.
Qed.
(** All cards of a file *)
Fixpoint done_all (cards : list (list row * row)) (s : @nas_state fl) : result nas_state :=
  match cards with [] => Ok s | C :: cards' => do s1 <- card_done C s; done_all cards' s1 end.
Lemma read_all cards rowss : Forall2 card_in cards rowss -> forall C (s : @nas_state fl), closed C ->
  read_cards C s (concat cards ++ ["ENDDATA"]) = done_all (C :: map card_rows rowss) s.
Proof.
  induction 1 as [|ls rows cards rowss [F R L Z] _ IH]; intros C s Hc.
  - cbn [concat app read_cards map done_all]. change (skipped "ENDDATA") with false. cbv iota. rewrite continued_end by auto. cbn [bind].
    destruct (card_done C s) as [s1|e]; [|reflexivity]. reflexivity.
  - destruct F as (l & ls' & -> & Hh & Hcont). inversion R as [|? r ? rows' Hl R']; subst. cbn [concat app]. rewrite <- app_assoc. cbn [read_cards].
    rewrite (proj1 Hl). rewrite (continued_head C l Hh Hc). cbn [bind]. cbn [map done_all]. destruct (card_done C s) as [s1|e]; [|reflexivity]. cbn [bind].
    assert (E : startswith l "ENDDATA" = false) by (destruct Hh as (a & Ha & _ & _ & NE); now apply (starts_head a)). rewrite E.
    unfold row_of. rewrite (proj2 Hl). rewrite (read_conts ls' rows' R' Hcont).
    + rewrite IH; [reflexivity|]. unfold closed. rewrite last_more. cbn [snd]. rewrite map_length. destruct rows' as [|r2 rows'']; [cbn [last] in *; now rewrite repeat_length|].
      replace (last (r2 :: rows'') (repeat "" (length r))) with (last (r :: r2 :: rows'') []); [exact Z|]. clear. revert r2. induction rows'' as [|r3 t IHt]; intros r2; [reflexivity|]. apply (IHt r3).
    + cbn [snd]. rewrite map_length. clear -L. revert L. replace (length r :: map (@length string) rows') with (map (@length string) (r :: rows')) by reflexivity.
      generalize (r :: rows'). intros l. induction l as [|x [|y l] IH]; intros L; cbn [butlast map] in *; constructor; inversion L; subst; auto.
Qed.

(** ** Fields of cards *)
Definition texts (l : row) : list string := flat_map (fun o => match o with Some s => [strip s] | None => [] end) l.
Lemma texts_app a b : texts (a ++ b) = texts a ++ texts b.
Proof. apply flat_map_app. Qed.
Lemma texts_some l : texts (map Some l) = map strip l.
Proof. induction l as [|x l IH]; [reflexivity|]. cbn. now rewrite <- IH. Qed.
Lemma unflag_snoc (l : row) x : length l = 9 -> unflagged (l ++ [x]) = l ++ [None].
Proof. intros H. unfold unflagged. rewrite app_length, H. cbn [length Nat.add Nat.eqb]. rewrite <- H at 1. rewrite firstn_app, Nat.sub_diag, firstn_all, firstn_O, app_nil_r. reflexivity. Qed.
Lemma unflag_short (l : row) : length l <> 10 -> unflagged l = l.
Proof. intros H. unfold unflagged. destruct (Nat.eqb_spec (length l) 10); [contradiction|reflexivity]. Qed.
Lemma texts_concat rows : texts (concat rows) = flat_map texts rows.
Proof. induction rows as [|r rows IH]; [reflexivity|]. cbn [concat flat_map]. now rewrite texts_app, IH. Qed.
Lemma fields_plain pre rl : (forall s r rest, pre ++ [rl] = (Some s :: r) :: rest -> startswith s "GRID*" = false) -> fields (pre, rl) = flat_map texts (pre ++ [rl]).
Proof.
  intros H. rewrite <- texts_concat. unfold fields, row. cbn [fst snd]. destruct (pre ++ [rl]) as [|[|[s|] r] rest]; try reflexivity. now rewrite (H s r rest eq_refl).
Qed.

(** *** Points *)
Definition kw_of (f : nas_format) : string := match f with Large => "GRID*" | _ => "GRID" end.
Definition grid_rows (f : nas_format) (id : nat) (pref x y z : string) : list (list string) :=
  match f with
  | Free => [["GRID"; str_of_nat id; pref; x; y; z]]
  | Small => [["GRID    "; pad_right 8 (str_of_nat id); pad_right 8 pref; pad_left 8 x; pad_left 8 y; pad_left 8 z]]
  | Large => [["GRID*   "; half1 (pad_right 16 (str_of_nat id)); half2 (pad_right 16 (str_of_nat id)); half1 (pad_right 16 pref); half2 (pad_right 16 pref);
               half1 (pad_left 16 x); half2 (pad_left 16 x); half1 (pad_left 16 y); half2 (pad_left 16 y)];
              ["*       "; half1 (pad_left 16 z); half2 (pad_left 16 z)]]
  end.
Definition text_ok (w : nat) (s : string) : Prop := plain_text s /\ String.length s <= w /\ char_in "," s = false.
Lemma comma_nat n : char_in "," (str_of_nat n) = false.
Proof. rewrite str_of_nat_Z. apply char_in_str_of_Z; [reflexivity|discriminate]. Qed.
Lemma comma_int z : char_in "," (str_of_Z z) = false.
Proof. apply char_in_str_of_Z; [reflexivity|discriminate]. Qed.
Lemma line_fixed a l : heads a (cat l) -> a <> "$"%char -> a <> "/"%char -> a <> "#"%char -> Forall (fieldw 8) l -> line_of (cat l) l.
Proof.
  intros Ha N1 N2 N3 H. split; [|now apply chunk_fixed]. apply (not_skipped a); auto. destruct l as [|x l]; [destruct Ha as (? & E); discriminate|].
  rewrite cat_cons, length_app. inversion H as [|? ? (Hx & _) _]; subst. lia.
Qed.
Lemma grid_ok f id pref x y z : String.length (str_of_nat id) <= format_width f -> text_ok (format_width f) pref ->
  (f = Free \/ Forall (fun s => String.length s <= format_width f) [x; y; z]) -> Forall (fun s => plain_text s /\ char_in "," s = false) [x; y; z] ->
  card_in (grid_lines f id pref x y z) (grid_rows f id pref x y z) /\
  fields (card_rows (grid_rows f id pref x y z)) = [kw_of f; str_of_nat id; pref; x; y; z].
Proof.
  intros Hid (Hp1 & Hp2 & Hp3) Hw Hx. assert (Wid : plain_text (str_of_nat id)) by (right; apply word_str_of_nat).
  inversion Hx as [|? ? (X1 & X2) Hx']; subst. inversion Hx' as [|? ? (Y1 & Y2) Hx'']; subst. inversion Hx'' as [|? ? (Z1 & Z2) _]; subst. clear Hx Hx' Hx''.
  destruct f.
  - cbn [grid_lines grid_rows]. split.
    + constructor.
      * eexists _, []. split; [reflexivity|split; [|constructor]]. exists "G"%char. repeat split; try discriminate. eexists. reflexivity.
      * constructor; [|constructor]. split.
        -- apply (not_skipped "G"); try discriminate; [eexists; reflexivity|]. rewrite join_cons, length_app. cbn. lia.
        -- unfold chunk_line. rewrite join_cons at 1. rewrite char_in_app. rewrite char_in_app. cbn [char_in Ascii.eqb orb]. change (Ascii.eqb "," ",") with true. rewrite orb_true_r. cbv iota.
           apply split_join_char; [discriminate|]. cbn [forallb]. rewrite comma_nat, Hp3, X2, Y2, Z2. reflexivity.
      * constructor.
      * cbn. discriminate.
    + cbn [card_rows fold_left]. rewrite fields_plain by (cbn; intros s r rest [= <-]; reflexivity). cbn [app flat_map]. rewrite app_nil_r, texts_some. cbn [map kw_of].
      assert (S : forall s, plain_text s -> strip s = s) by (intros s [->|H]; [reflexivity|now apply strip_word]). change (strip "GRID") with "GRID". rewrite !S by auto. reflexivity.
  - destruct Hw as [Hw|Hw]; [discriminate|]. inversion Hw as [|? ? W1 Hw']; subst. inversion Hw' as [|? ? W2 Hw'']; subst. inversion Hw'' as [|? ? W3 _]; subst. cbn [format_width] in *.
    cbn [grid_lines grid_rows]. 
    assert (E : ("GRID    " ++ pad_right 8 (str_of_nat id) ++ pad_right 8 pref ++ pad_left 8 x ++ pad_left 8 y ++ pad_left 8 z)%string =
                cat ["GRID    "; pad_right 8 (str_of_nat id); pad_right 8 pref; pad_left 8 x; pad_left 8 y; pad_left 8 z]) by (rewrite !cat_cons; cbn [cat String.concat]; now rewrite str_app_nil_r).
    rewrite E. split.
    + constructor.
      * eexists _, []. split; [reflexivity|split; [|constructor]]. exists "G"%char. repeat split; try discriminate. eexists. reflexivity.
      * constructor; [|constructor]. apply (line_fixed "G"); try discriminate; [eexists; reflexivity|].
        repeat constructor; try (apply pad_right_field; auto using comma_nat); try (apply pad_left_field; auto).
      * constructor.
      * cbn. discriminate.
    + cbn [card_rows fold_left]. rewrite fields_plain by (cbn; intros s r rest [= <-]; reflexivity). cbn [app flat_map]. rewrite app_nil_r, texts_some. cbn [map kw_of].
      rewrite !strip_pad_right, !strip_pad_left by auto. reflexivity.
  - destruct Hw as [Hw|Hw]; [discriminate|]. inversion Hw as [|? ? W1 Hw']; subst. inversion Hw' as [|? ? W2 Hw'']; subst. inversion Hw'' as [|? ? W3 _]; subst. cbn [format_width] in *.
    assert (Fi := pad_right_field 16 _ Hid (comma_nat id)). assert (Fp := pad_right_field 16 _ Hp2 Hp3).
    assert (Fx := pad_left_field 16 _ W1 X2). assert (Fy := pad_left_field 16 _ W2 Y2). assert (Fz := pad_left_field 16 _ W3 Z2).
    apply halves_field in Fi, Fp, Fx, Fy, Fz. cbn [grid_lines grid_rows].
    set (I := pad_right 16 (str_of_nat id)) in *. set (P := pad_right 16 pref) in *. set (X := pad_left 16 x) in *. set (Y := pad_left 16 y) in *. set (Z := pad_left 16 z) in *.
    assert (E : ("GRID*   " ++ I ++ P ++ X ++ Y)%string = cat ["GRID*   "; half1 I; half2 I; half1 P; half2 P; half1 X; half2 X; half1 Y; half2 Y]).
    { rewrite !cat_cons. cbn [cat String.concat]. rewrite str_app_nil_r. rewrite <- (halves I) at 1. rewrite <- (halves P) at 1. rewrite <- (halves X) at 1. rewrite <- (halves Y) at 1. now rewrite !str_app_assoc. }
    assert (E2 : ("*       " ++ Z)%string = cat ["*       "; half1 Z; half2 Z]).
    { rewrite !cat_cons. cbn [cat String.concat]. rewrite str_app_nil_r. now rewrite <- (halves Z) at 1. }
    rewrite E, E2. split.
    + constructor.
      * eexists _, [_]. split; [reflexivity|split]. { exists "G"%char. repeat split; try discriminate. eexists. reflexivity. } constructor; [|constructor]. right. eexists. reflexivity.
      * constructor; [apply (line_fixed "G"); try discriminate; [eexists; reflexivity|]|constructor; [apply (line_fixed "*"); try discriminate; [eexists; reflexivity|]|constructor]].
        -- repeat (constructor; [first [apply Fi|apply Fp|apply Fx|apply Fy|split; reflexivity]|]). constructor.
        -- repeat (constructor; [first [apply Fz|split; reflexivity]|]). constructor.
      * cbn. repeat constructor.
      * cbn. discriminate.
    + cbn [card_rows fold_left map fst snd app marked]. rewrite unflag_short by (cbn; lia). unfold fields. cbn [fst snd app]. change (startswith "GRID*   " "GRID*") with true. cbv iota.
      cbn [map merged two concat app]. rewrite !halves. cbn [flat_map app]. change (strip "GRID*   ") with "GRID*". unfold I, P, X, Y, Z. rewrite !strip_pad_right, !strip_pad_left by auto. reflexivity.
Qed.
Lemma point_done f id pref (vs : list fl) x y z s C : fields C = [kw_of f; str_of_nat id; pref; x; y; z] ->
  pref = "" \/ (exists r, pref = str_of_Z r) -> Forall2 (fun t v => word t = true /\ fparse t = Some v) [x; y; z] vs ->
  card_done C s = Ok (NasState (ns_points s ++ [(Z.of_nat id, vs)]) (ns_prefs s ++ match parse_Z pref with Some r => [r] | None => [] end) (ns_cells s) (ns_ids s) (ns_crefs s)).
Proof.
  intros Hf Hp Hv. unfold card_done. rewrite Hf. cbn [field nth_error of_option bind].
  assert (K : smem (kw_of f) ["GRID"; "GRID*"] = true) by (destruct f; reflexivity). rewrite K.
  unfold py_int at 1. rewrite (strip_word _ (word_str_of_nat id)). rewrite str_of_nat_Z at 1. rewrite parse_Z_str_of_Z. cbn [of_option bind].
  assert (R : opt_int pref = Ok (parse_Z pref)).
  { destruct Hp as [->|(r & ->)]; [reflexivity|]. assert (W := word_str_of_Z r). unfold opt_int, py_int. rewrite (strip_word _ W), parse_Z_str_of_Z. destruct (str_of_Z r); [discriminate|reflexivity]. }
  rewrite R. cbn [bind]. change (slice 3 6 [kw_of f; str_of_nat id; pref; x; y; z]) with [x; y; z].
  assert (M : mapM nas_float [x; y; z] = Ok vs).
  { apply mapM_Forall2. eapply Forall2_impl; [|exact Hv]. intros t v (W & P). unfold nas_float. now rewrite (strip_word t W), P. }
  rewrite M. reflexivity.
Qed.

(** *** Cells *)
Definition parts (f : nas_format) (s : string) : list string := match f with Large => [half1 s; half2 s] | _ => [s] end.
Definition split_fields (f : nas_format) (l : list string) : list string := flat_map (parts f) l.
Definition mult (f : nas_format) : nat := match f with Large => 2 | _ => 1 end.
Lemma parts_cat f l : cat (split_fields f l) = cat l.
Proof.
  induction l as [|x l IH]; [reflexivity|]. unfold split_fields in *. cbn [flat_map]. rewrite cat_app, IH, cat_cons. f_equal. destruct f; cbn [parts]; rewrite ?cat_cons; cbn [cat String.concat]; rewrite ?str_app_nil_r; auto.
  apply halves.
Qed.
Lemma parts_fields f l : Forall (fieldw (format_width f)) l -> Forall (fieldw 8) (split_fields f l).
Proof.
  induction 1 as [|x l Hx _ IH]; [constructor|]. unfold split_fields in *. cbn [flat_map]. apply Forall_app. split; [|exact IH].
  destruct f; cbn [parts format_width] in *; repeat constructor; try apply Hx; now apply halves_field.
Qed.
Lemma parts_length f l : length (split_fields f l) = mult f * length l.
Proof. induction l as [|x l IH]; [destruct f; reflexivity|]. unfold split_fields in *. cbn [flat_map length]. rewrite app_length, IH. destruct f; cbn [parts length mult]; lia. Qed.
Lemma parts_app f a b : split_fields f (a ++ b) = split_fields f a ++ split_fields f b.
Proof. apply flat_map_app. Qed.
Definition first_of (f : nas_format) : nat := match f with Large => 2 | _ => 6 end.
Definition second_of (f : nas_format) : nat := match f with Large => 6 | _ => 14 end.
Definition mark (f : nas_format) : string := match f with Large => "*" | _ => "+" end.
Definition padded_nodes (f : nas_format) (c : list Z) : list string := map (fun i => pad_right (format_width f) (str_of_Z i)) c.
Definition cell_rows (f : nas_format) (t : string) (id : nat) (ref : string) (c1 : list Z) : list (list string) :=
  let w := format_width f in
  let info := pad_right 8 t :: split_fields f [pad_right w (str_of_nat id); pad_right w ref] in
  let ns a b := split_fields f (padded_nodes f (slice a b c1)) in
  let f1 := flag (mark f) "1" id in
  let f2 := flag (mark f) "2" id in
  let n1 := first_of f in let n2 := second_of f in
  if Nat.ltb n1 (length c1) then
    if Nat.ltb n2 (length c1) then [info ++ ns 0 n1 ++ [f1]; f1 :: ns n1 n2 ++ [f2]; f2 :: ns n2 (length c1)]
    else [info ++ ns 0 n1 ++ [f1]; f1 :: ns n1 n2]
  else [info ++ ns 0 n1].
Lemma slice_first {A} n (l : list A) : slice 0 n l = firstn n l.
Proof. unfold slice. rewrite Nat.sub_0_r. reflexivity. Qed.
Lemma slice_rest {A} n (l : list A) : slice n (length l) l = skipn n l.
Proof. unfold slice. apply firstn_all2. rewrite skipn_length. lia. Qed.
Lemma slice_len {A} a b (l : list A) : length (slice a b l) = Nat.min (b - a) (length l - a).
Proof. unfold slice. now rewrite firstn_length, skipn_length. Qed.
Lemma firstn_In {A} n (l : list A) x : In x (firstn n l) -> In x l.
Proof. intros H. rewrite <- (firstn_skipn n l). apply in_or_app. now left. Qed.
Lemma skipn_In {A} n (l : list A) x : In x (skipn n l) -> In x l.
Proof. intros H. rewrite <- (firstn_skipn n l). apply in_or_app. now right. Qed.
Lemma Forall_slice {A} (P : A -> Prop) a b l : Forall P l -> Forall P (slice a b l).
Proof. rewrite !Forall_forall. intros H x Hx. apply H. unfold slice in Hx. apply firstn_In in Hx. now apply skipn_In in Hx. Qed.
Lemma nodes_cat f c : node_fields (format_width f) c = cat (split_fields f (padded_nodes f c)).
Proof. now rewrite parts_cat. Qed.
Lemma flag_ok f k id : String.length (hex_of_Z (Z.of_nat id)) <= 6 -> (k = "1" \/ k = "2") -> fieldw 8 (flag (mark f) k id) /\ is_cont (flag (mark f) k id).
Proof.
  intros H Hk. assert (Hx := pad_right_field 6 _ H (char_in_hex "," (Z.of_nat id) eq_refl ltac:(discriminate))). destruct Hx as (L & C). split.
  - unfold flag. split.
    + rewrite !length_app, L. destruct f; destruct Hk as [-> | ->]; reflexivity.
    + rewrite !char_in_app, C. destruct f; destruct Hk as [-> | ->]; reflexivity.
  - destruct f; [left|left|right]; eexists; reflexivity.
Qed.
Lemma heads_app a x y : heads a x -> heads a (x ++ y)%string.
Proof. intros (l & ->). eexists. reflexivity. Qed.
Lemma cell_card f t id ref c1 : f <> Free -> heads "C" t -> text_ok 8 t -> String.length (str_of_nat id) <= format_width f -> text_ok (format_width f) ref ->
  (first_of f < length c1 -> String.length (hex_of_Z (Z.of_nat id)) <= 6) -> Forall (fun i => String.length (str_of_Z i) <= format_width f) c1 -> length c1 <= 20 ->
  forall c, to_nastran_ordering t (map (fun i => i + 1)%Z c) = Ok c1 ->
  exists ls, cell_lines f t id ref c = Ok ls /\ card_in ls (cell_rows f t id ref c1).
Proof.
  intros Hf Ht (_ & Ht2 & Ht3) Hid (_ & Hr2 & Hr3) Hx Hc Hl c Hord. unfold cell_lines. rewrite Hord. cbn [bind].
  assert (FT := pad_right_field 8 t Ht2 Ht3). assert (FI := pad_right_field _ _ Hid (comma_nat id)). assert (FR := pad_right_field _ _ Hr2 Hr3).
  assert (FN : forall a b, Forall (fieldw 8) (split_fields f (padded_nodes f (slice a b c1)))).
  { intros a b. apply parts_fields. unfold padded_nodes. apply Forall_map. apply Forall_slice. eapply Forall_impl; [|exact Hc]. intros i Hi. apply pad_right_field; [exact Hi|apply comma_int]. }
  assert (LN : forall a b, length (split_fields f (padded_nodes f (slice a b c1))) = mult f * Nat.min (b - a) (length c1 - a)).
  { intros a b. rewrite parts_length. unfold padded_nodes. now rewrite map_length, slice_len. }
  set (info := pad_right 8 t :: split_fields f [pad_right (format_width f) (str_of_nat id); pad_right (format_width f) ref]).
  assert (Finfo : Forall (fieldw 8) info) by (constructor; [exact FT|]; apply parts_fields; repeat constructor; apply FI || apply FR).
  assert (Linfo : length info = 1 + mult f * 2) by (unfold info; cbn [length]; now rewrite parts_length).
  assert (Cinfo : forall x, (pad_right 8 t ++ pad_right (format_width f) (str_of_nat id) ++ pad_right (format_width f) ref ++ x)%string = (cat info ++ x)%string).
  { intros x. unfold info. rewrite cat_cons, parts_cat, !cat_cons. cbn [cat String.concat]. now rewrite str_app_nil_r, !str_app_assoc. }
  assert (Hinfo : forall x, heads "C" (cat (info ++ x))).
  { intros x. unfold info. cbn [app]. rewrite cat_cons. apply heads_app. unfold pad_right. now apply heads_app. }
  assert (Hhead : forall x, is_head (cat (info ++ x))) by (intros x; exists "C"%char; repeat split; try discriminate; apply Hinfo).
  assert (Eres : (if Nat.ltb (first_of f) (length c1) then
        if Nat.ltb (second_of f) (length c1) then
          Ok [(pad_right 8 t ++ pad_right (format_width f) (str_of_nat id) ++ pad_right (format_width f) ref) ++ node_fields (format_width f) (firstn (first_of f) c1) ++ flag (mark f) "1" id;
              flag (mark f) "1" id ++ node_fields (format_width f) (slice (first_of f) (second_of f) c1) ++ flag (mark f) "2" id; flag (mark f) "2" id ++ node_fields (format_width f) (skipn (second_of f) c1)]%string
        else Ok [(pad_right 8 t ++ pad_right (format_width f) (str_of_nat id) ++ pad_right (format_width f) ref) ++ node_fields (format_width f) (firstn (first_of f) c1) ++ flag (mark f) "1" id;
              flag (mark f) "1" id ++ node_fields (format_width f) (slice (first_of f) (second_of f) c1)]%string
      else Ok [(pad_right 8 t ++ pad_right (format_width f) (str_of_nat id) ++ pad_right (format_width f) ref) ++ node_fields (format_width f) (firstn (first_of f) c1)]%string) =
      Ok (map cat (cell_rows f t id ref c1))).
  { unfold cell_rows. rewrite !slice_first, slice_rest. fold info. rewrite !nodes_cat, !str_app_assoc, !Cinfo.
    destruct (Nat.ltb (first_of f) (length c1)); [destruct (Nat.ltb (second_of f) (length c1))|]; cbn [map]; rewrite ?cat_cons, ?cat_app, ?cat_cons; cbn [cat String.concat]; rewrite ?str_app_nil_r; reflexivity. }
  exists (map cat (cell_rows f t id ref c1)). split.
  { destruct f; [contradiction| |]; exact Eres. }
  assert (Fl : first_of f < length c1 -> (fieldw 8 (flag (mark f) "1" id) /\ is_cont (flag (mark f) "1" id)) /\ (fieldw 8 (flag (mark f) "2" id) /\ is_cont (flag (mark f) "2" id))).
  { intros H. split; apply flag_ok; auto. }
  assert (Hcat : forall x, is_cont x -> forall l, is_cont (cat (x :: l))) by (intros x [H|H] l; [left|right]; rewrite cat_cons; now apply heads_app).
  assert (Hcont : forall l, is_cont (cat l) -> Forall (fieldw 8) l -> line_of (cat l) l) by (intros l [H|H] Hl8; eapply line_fixed; eauto; discriminate).
  clear Eres. unfold cell_rows. fold info.
  assert (Lx : forall n1, first_of f = n1 -> n1 < length c1 -> length (info ++ split_fields f (padded_nodes f (slice 0 n1 c1)) ++ [flag (mark f) "1" id]) = 10).
  { intros n1 <- H. rewrite !app_length, LN, Linfo. cbn [length]. destruct f; cbn [mult first_of] in *; lia. }
  destruct (Nat.ltb_spec (first_of f) (length c1)) as [L1|L1]; [destruct (Fl L1) as ((F1 & C1) & (F2 & C2)); destruct (Nat.ltb_spec (second_of f) (length c1)) as [L2|L2]|]; constructor.
  - eexists _, _. split; [reflexivity|]. split; [apply Hhead|]. cbn [map]. repeat (apply Forall_cons; [now apply Hcat|]). constructor.
  - cbn [map]. constructor; [|constructor; [|constructor; [|constructor]]].
    + apply (line_fixed "C"); try discriminate; [apply Hinfo|]. apply Forall_app. split; [exact Finfo|]. apply Forall_app. split; [apply FN|repeat constructor; apply F1].
    + apply Hcont; [auto|]. constructor; [exact F1|]. apply Forall_app. split; [apply FN|repeat constructor; apply F2].
    + apply Hcont; [auto|]. constructor; [exact F2|]. apply FN.
  - cbn [butlast]. apply Forall_cons; [|apply Forall_cons; [|constructor]].
    + rewrite (Lx _ eq_refl L1). lia.
    + cbn [length]. rewrite app_length, LN. cbn [length]. destruct f; cbn [mult first_of second_of] in *; lia.
  - cbn [last length]. rewrite LN. destruct f; cbn [mult first_of second_of] in *; lia.
  - eexists _, _. split; [reflexivity|]. split; [apply Hhead|]. cbn [map]. repeat (apply Forall_cons; [now apply Hcat|]). constructor.
  - cbn [map]. constructor; [|constructor; [|constructor]].
    + apply (line_fixed "C"); try discriminate; [apply Hinfo|]. apply Forall_app. split; [exact Finfo|]. apply Forall_app. split; [apply FN|repeat constructor; apply F1].
    + apply Hcont; [auto|]. constructor; [exact F1|]. apply FN.
  - cbn [butlast]. apply Forall_cons; [|constructor]. rewrite (Lx _ eq_refl L1). lia.
  - cbn [last length]. rewrite LN. destruct f; cbn [mult first_of second_of] in *; lia.
  - eexists _, []. split; [reflexivity|]. split; [apply Hhead|constructor].
  - cbn [map]. constructor; [|constructor]. apply (line_fixed "C"); try discriminate; [apply Hinfo|]. apply Forall_app. split; [exact Finfo|apply FN].
  - constructor.
  - cbn [last]. rewrite app_length, LN, Linfo. destruct f; cbn [mult first_of second_of] in *; lia.
Qed.

Lemma head_more s r : forall rs C, (exists x rest, fst C ++ [snd C] = (Some s :: x) :: rest) -> (fst C = [] -> snd C = map Some (s :: r)) ->
  exists x rest, fst (fold_left more rs C) ++ [snd (fold_left more rs C)] = (Some s :: x) :: rest.
Proof.
  induction rs as [|r2 rs IH]; intros C H1 H2; [exact H1|]. cbn [fold_left]. apply IH.
  - destruct C as [[|r0 pre] rl]; cbn [fst snd more app] in *.
    + rewrite H2 by reflexivity. cbn [map]. unfold unflagged. destruct (Nat.eqb _ _); cbn [firstn app]; eauto.
    + destruct H1 as (x & rest & E). injection E as -> E. eauto.
  - intros E. exfalso. cbn [more fst] in E. apply app_eq_nil in E as [_ E]. discriminate E.
Qed.
Lemma fields_head s r rs : heads "C" s -> exists l, fields (card_rows ((s :: r) :: rs)) = strip s :: l.
Proof.
  intros Hs. assert (H := head_more s r rs ([], map Some (s :: r))). cbn [fst snd] in H. destruct H as (x & rest & E); [cbn; eauto|auto|].
  assert (G : forall Q : list row * row, fst Q ++ [snd Q] = (Some s :: x) :: rest -> exists l, fields Q = strip s :: l).
  { intros [pre rl] E1. cbn [fst snd] in E1. rewrite fields_plain.
    - unfold row in *. rewrite E1. cbn [flat_map texts app]. eauto.
    - intros s' r' rest' E'. assert (E2 := eq_trans (eq_sym E1) E'). injection E2 as <- _ _. now apply (starts_head "C"). }
  exact (G _ E).
Qed.
Lemma strip_nodes c : map strip (split_fields Small (padded_nodes Small c)) = map str_of_Z c.
Proof. induction c as [|i c IH]; [reflexivity|]. cbn [padded_nodes map split_fields flat_map parts app format_width] in *. rewrite strip_pad_right by (right; apply word_str_of_Z). f_equal. exact IH. Qed.
Lemma small_length c : length (split_fields Small (padded_nodes Small c)) = length c.
Proof. rewrite parts_length. unfold padded_nodes. rewrite map_length. cbn [mult]. lia. Qed.
Lemma small_fields t id ref c1 : heads "C" t -> plain_text t -> plain_text ref ->
  fields (card_rows (cell_rows Small t id ref c1)) = t :: str_of_nat id :: ref :: map str_of_Z c1.
Proof.
  intros Ht Pt Pr. unfold cell_rows. cbn [first_of second_of].
  set (info := pad_right 8 t :: _). assert (Li : length info = 3) by reflexivity.
  assert (Ei : map strip info = [t; str_of_nat id; ref]).
  { unfold info. cbn [map split_fields flat_map parts app format_width]. rewrite !strip_pad_right; auto. right. apply word_str_of_nat. }
  assert (Hi : info = pad_right 8 t :: tl info) by reflexivity.
  assert (Hg : startswith (pad_right 8 t) "GRID*" = false) by (apply (starts_head "C"); [unfold pad_right; now apply heads_app|discriminate]).
  clearbody info.
  assert (Hrow : forall a f1, 9 <= 3 + length a -> length a <= 6 -> unflagged (map Some (info ++ a ++ [f1])) = map Some (info ++ a) ++ [None]).
  { intros a f1 H1 H2. rewrite app_assoc, map_app. cbn [map]. apply unflag_snoc. rewrite map_length, app_length. lia. }
  set (A := split_fields Small (padded_nodes Small (slice 0 6 c1))). assert (EA : map strip A = map str_of_Z (firstn 6 c1)) by (unfold A; now rewrite strip_nodes, slice_first).
  assert (LA : length A = Nat.min 6 (length c1)) by (unfold A; now rewrite small_length, slice_len, !Nat.sub_0_r).
  set (B := split_fields Small (padded_nodes Small (slice 6 14 c1))). assert (EB : map strip B = map str_of_Z (slice 6 14 c1)) by (unfold B; now rewrite strip_nodes).
  assert (LB : length B = Nat.min 8 (length c1 - 6)) by (unfold B; now rewrite small_length, slice_len).
  set (D := split_fields Small (padded_nodes Small (slice 14 (length c1) c1))). assert (ED : map strip D = map str_of_Z (skipn 14 c1)) by (unfold D; now rewrite strip_nodes, slice_rest).
  clearbody A B D.
  assert (G : forall x rest s' r' rest', (map Some info ++ x) :: rest = (Some s' :: r') :: rest' -> startswith s' "GRID*" = false).
  { intros x rest s' r' rest' E. rewrite Hi in E. cbn [map app] in E. injection E as <- _ _. exact Hg. }
  destruct (Nat.ltb_spec 6 (length c1)) as [L1|L1]; [destruct (Nat.ltb_spec 14 (length c1)) as [L2|L2]|]; cbn [card_rows fold_left fst snd app].
  - unfold more. cbn [fst snd app]. rewrite Hrow by lia. set (f1 := flag _ "1" id). set (f2 := flag _ "2" id).
    assert (E2 : unflagged (marked (map Some (f1 :: B ++ [f2]))) = None :: map Some B ++ [None]).
    { cbn [map marked]. rewrite map_app. cbn [map]. change (None :: map Some B ++ [Some f2]) with ((None :: map Some B) ++ [Some f2]). rewrite unflag_snoc; [reflexivity|]. cbn [length]. rewrite map_length. lia. }
    rewrite E2. rewrite fields_plain by (intros s' r' rest'; cbn [app]; rewrite map_app, <- app_assoc; apply G).
    cbn [app flat_map map marked]. rewrite !texts_app. cbn [texts flat_map app]. rewrite !texts_app, !texts_some. cbn [texts flat_map]. rewrite !app_nil_r. rewrite !map_app, Ei, EA, EB, ED.
    cbn [app]. do 3 f_equal. rewrite <- !map_app. f_equal. transitivity (firstn 14 c1 ++ skipn 14 c1); [|apply firstn_skipn]. rewrite app_assoc. f_equal.
    unfold slice. rewrite <- (firstn_skipn 6 (firstn 14 c1)). rewrite firstn_firstn, skipn_firstn_comm. reflexivity.
  - unfold more. cbn [fst snd app]. rewrite Hrow by lia. set (f1 := flag _ "1" id).
    rewrite fields_plain by (intros s' r' rest'; cbn [app]; rewrite map_app, <- app_assoc; apply G).
    cbn [app flat_map map marked]. rewrite !texts_app. cbn [texts flat_map app]. rewrite !texts_some. rewrite !app_nil_r. rewrite !map_app, Ei, EA, EB.
    cbn [app]. do 3 f_equal. rewrite <- !map_app. f_equal. transitivity (firstn 6 c1 ++ skipn 6 c1); [|apply firstn_skipn]. f_equal. unfold slice. apply firstn_all2. rewrite skipn_length. lia.
  - rewrite fields_plain by (intros s' r' rest'; cbn [app]; rewrite map_app; apply G).
    cbn [app flat_map]. rewrite app_nil_r, texts_some, map_app, Ei, EA. cbn [app]. do 3 f_equal. f_equal. now apply firstn_all2.
Qed.
Lemma cell_rows_first f t id ref c1 : exists r rs, cell_rows f t id ref c1 = (pad_right 8 t :: r) :: rs.
Proof. unfold cell_rows. destruct (Nat.ltb _ _); [destruct (Nat.ltb _ _)|]; cbn [app]; eauto. Qed.

(** The types of cells *)
Definition type_fact (t : string) : bool :=
  match dget t meshio_to_nastran_type with
  | Some nt => match dget t num_nodes_per_cell with
    | Some n =>
      match dget nt nastran_to_meshio_type with Some t' => String.eqb t' t | None => false end && startswith nt "C" && word nt && Nat.leb (String.length nt) 7 &&
      negb (char_in "," nt) && negb (smem nt ["GRID"; "GRID*"]) && (negb (smem nt bars) || Nat.eqb n 2) && Nat.leb n 20 && Nat.leb 1 n &&
      negb (smem (nt ++ "*")%string ["GRID"; "GRID*"]) && negb (dmem (nt ++ "*")%string nastran_to_meshio_type) && word (nt ++ "*")%string && negb (char_in "," (nt ++ "*")%string) &&
      (negb (smem nt ["CTRAX6"; "CTRIAX6"])) && (negb (String.eqb nt "CHEXA_") || Nat.eqb n 20) && (negb (String.eqb nt "CPENTA_") || Nat.eqb n 15) &&
      negb (smem (nt ++ "*")%string ["CTRAX6"; "CTRIAX6"; "CHEXA_"; "CPENTA_"])
    | None => false end
  | None => false end.
Lemma type_facts : forallb type_fact (dkeys meshio_to_nastran_type) = true.
Proof. vm_compute. reflexivity. Qed.
End Nastran.
