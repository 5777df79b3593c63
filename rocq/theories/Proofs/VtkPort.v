(** Laws of the ASCII and binary ports of legacy VTK files. *)
From Coq Require Import ZArith NArith List String Ascii Bool Lia.
From Verif.Lib Require Import Base Facts Facts2 Text TextFacts Lines LinesFacts Bytes BytesFacts File.
From Verif.Model Require Import Core Helpers Vtk Port Numpy VtkFile.
From Verif.Spec Require Import Core Blocks Vtk VtkFile.
From Verif.Proofs Require Import Port.
Import ListNotations.

(** A port keeps lines, numbers and integers.  [good] is what the rest of the file must be for reading a line, [hard]
    what it must be after numbers: no blanks at its start. *)
Section Laws.
Context {V : Type} (p : vport V) (fits : string -> V -> Prop) (good hard : list (vunt p) -> Prop).

Definition blanks (k : nat) : list (vunt p) := concat (repeat (v_line p "") k).

Record vport_ok : Prop := VPortOk {
  l_mode : v_mode p = "ASCII" \/ v_mode p = "BINARY";
  l_good_nil : good [];
  l_hard_nil : hard [];
  l_line_good : forall l s, one_line l -> good s -> good (v_line p l ++ s);
  l_line_hard : forall l s, blank l = false -> hard (v_line p l ++ s);
  l_next : forall l s, one_line l -> good s -> v_next p (v_line p l ++ s) = Some (l, s);
  l_eof : v_next p [] = None;
  l_line_pos : forall l s, length s < length (v_line p l ++ s);
  l_put_good : forall dt l s, Forall (fits dt) l -> good s -> good (v_put p dt l ++ s);
  l_get : forall dt l s, dmem dt dtype_widths = true -> Forall (fits dt) l -> good s -> hard s ->
    exists k, (l <> [] -> k = 0) /\ length (blanks k ++ s) <= length (v_put p dt l ++ s) /\
      v_get p dt (length l) (v_put p dt l ++ s) = Ok (l, blanks k ++ s);
  l_put_ints_good : forall dt bs s, good s -> good (v_put_ints p dt bs ++ s);
  l_get_ints : forall dt bs s, dt = "int32" \/ dt = "int64" -> Forall (index_fits (width_of dt)) (concat bs) ->
    good s -> hard s ->
    exists k, (concat bs <> [] -> k = 0) /\ length (blanks k ++ s) <= length (v_put_ints p dt bs ++ s) /\
      v_get_ints p dt (length (concat bs)) (v_put_ints p dt bs ++ s) = Ok (concat bs, blanks k ++ s);
  l_get_types : forall bs s, Forall (index_fits 4) (concat bs) -> good s -> hard s ->
    exists k, length (blanks k ++ s) <= length (v_put_ints p "int32" bs ++ s) /\
      v_get_types p (length (concat bs)) (v_put_ints p "int32" bs ++ s) = Ok (concat bs, blanks k ++ s) }.
End Laws.

(** ** ASCII *)
Lemma take_tokens_pos_blanks lines rest : 0 < length (flat_map split_ws lines) ->
  take_tokens_pos (length (flat_map split_ws lines)) (lines ++ rest) = Some (flat_map split_ws lines, drop_blank rest).
Proof.
  induction lines as [|l lines IH]; [cbn; lia|]. intros _. cbn [app flat_map take_tokens_pos].
  rewrite app_length. destruct (Nat.ltb_spec (length (split_ws l)) (length (split_ws l) + length (flat_map split_ws lines))) as [H|H].
  - rewrite Nat.add_comm, Nat.add_sub. rewrite IH by lia. reflexivity.
  - assert (E : flat_map split_ws lines = []) by (apply length_zero_iff_nil; lia).
    rewrite E. cbn [length]. rewrite Nat.add_0_r, firstn_all, skipn_all, app_nil_r. f_equal. f_equal.
    change (join " " []) with ""%string. cbn [drop_blank]. change (blank "") with true. cbn iota.
    clear - E. induction lines as [|l lines IH]; [reflexivity|]. cbn [flat_map] in E. apply app_eq_nil in E. destruct E as [E1 E2].
    cbn [app drop_blank]. unfold blank. rewrite E1. auto.
Qed.

Section Ascii.
Context {V : Type} (nk : nums V) (fits : string -> V -> Prop).
Hypothesis Hn : ascii_nums nk fits.

Lemma put_tokens dt l : Forall (fits dt) l -> flat_map split_ws (vput_ascii nk dt l) = map (n_fmt nk dt) l.
Proof.
  intros H. unfold vput_ascii. cbn [flat_map]. rewrite app_nil_r. apply split_ws_join.
  induction H as [|v l Hv H IH]; [reflexivity|]. cbn [map forallb]. destruct (Hn _ _ Hv) as [-> _]. exact IH.
Qed.
Lemma parse_put dt l : Forall (fits dt) l -> mapM (fun t => of_option ValueError (n_parse nk dt t)) (map (n_fmt nk dt) l) = Ok l.
Proof.
  induction 1 as [|v l Hv H IH]; [reflexivity|]. cbn [map mapM]. destruct (Hn _ _ Hv) as [_ ->]. cbn [of_option bind]. now rewrite IH.
Qed.
Lemma ints_tokens bs : flat_map split_ws (vput_ints_ascii "" bs) = map str_of_Z (concat bs).
Proof.
  unfold vput_ints_ascii. induction bs as [|b bs IH]; [reflexivity|]. cbn [flat_map concat]. rewrite flat_map_app, IH, map_app.
  f_equal. destruct b as [|z b]; [reflexivity|]. generalize (z :: b). clear. intros l. induction l as [|z l IH]; [reflexivity|].
  cbn [map flat_map]. rewrite IH, split_ws_word_end by apply word_str_of_Z. reflexivity.
Qed.
Lemma blanks_ascii k : blanks (vascii nk) k = repeat ""%string k.
Proof. unfold blanks. cbn [vascii v_line vunt]. induction k; cbn; congruence. Qed.
Lemma empty_ints bs : concat bs = [] -> vput_ints_ascii "" bs = repeat ""%string (length bs).
Proof.
  unfold vput_ints_ascii. induction bs as [|b bs IH]; [reflexivity|]. cbn [concat]. intros E. apply app_eq_nil in E. destruct E as [-> E].
  cbn [flat_map length repeat app]. now rewrite IH.
Qed.
Lemma get_ints_ascii_law bs s : solid s ->
  exists k, (concat bs <> [] -> k = 0) /\ length (repeat ""%string k ++ s) <= length (vput_ints_ascii "" bs ++ s) /\
    vget_ints_ascii (length (concat bs)) (vput_ints_ascii "" bs ++ s) = Ok (concat bs, repeat ""%string k ++ s).
Proof.
  intros Hs. destruct (concat bs) as [|z zs] eqn:E.
  - exists (length bs). rewrite (empty_ints bs E). split; [congruence|]. split; [lia|]. reflexivity.
  - exists 0. split; [reflexivity|]. split; [rewrite !app_length; cbn; lia|]. unfold vget_ints_ascii.
    pose proof (ints_tokens bs) as T. rewrite E in T.
    assert (L : length (z :: zs) = length (flat_map split_ws (vput_ints_ascii "" bs))) by (rewrite T; now rewrite map_length).
    rewrite L. unfold take_tokens. rewrite <- L at 1. cbn [length]. 
    rewrite take_tokens_pos_blanks by (rewrite <- L; cbn; lia). rewrite T. cbn [of_option bind fst snd]. rewrite parse_ints_ok.
    cbn [bind repeat app]. now rewrite Hs.
Qed.

Lemma vascii_ok : vport_ok (vascii nk) fits (fun _ => True) solid.
Proof.
  constructor; cbn [vascii vunt v_mode v_line v_next v_put v_get v_put_ints v_get_ints v_get_types]; auto.
  - apply solid_nil.
  - intros l s H. now apply solid_cons.
  - intros dt l s _ Hf _ Hs. destruct l as [|v l].
    + exists 1. split; [congruence|]. split; [rewrite blanks_ascii; cbn; lia|]. rewrite blanks_ascii. reflexivity.
    + exists 0. split; [reflexivity|]. split; [rewrite blanks_ascii; cbn; lia|]. rewrite blanks_ascii. cbn [repeat app].
      unfold vget_ascii. pose proof (put_tokens dt _ Hf) as T.
      assert (L : length (v :: l) = length (flat_map split_ws (vput_ascii nk dt (v :: l)))) by (rewrite T; now rewrite map_length).
      rewrite L. unfold take_tokens. rewrite <- L at 1. cbn [length].
      rewrite take_tokens_pos_blanks by (rewrite <- L; cbn; lia). rewrite T. cbn [of_option bind fst snd].
      rewrite parse_put by auto. cbn [bind]. now rewrite Hs.
  - intros dt bs s _ _ _ Hs. destruct (get_ints_ascii_law bs s Hs) as (k & A & B & C). exists k. rewrite blanks_ascii. auto.
  - intros bs s _ _ Hs. destruct (get_ints_ascii_law bs s Hs) as (k & A & B & C). exists k. rewrite blanks_ascii. auto.
Qed.
End Ascii.

(** ** Binary *)
Section Binary.
Context {V : Type} (nk : nums V) (fits : string -> V -> Prop).
Hypothesis Hn : binary_nums nk fits.

Lemma width_pos dt : 0 < width_of dt.
Proof.
  unfold width_of. destruct (dget dt dtype_widths) as [w|] eqn:E; [|lia]. apply dget_In in E. cbv in E.
  repeat (destruct E as [E|E]; [injection E as _ <-; lia|]). destruct E.
Qed.
Lemma index_range w z : 0 < w -> index_fits w z -> sint_range w z.
Proof.
  intros Hw H. unfold sint_range, index_fits, capacity in *.
  replace (Z.of_N (256 ^ N.of_nat w)) with (2 * 2 ^ (8 * Z.of_nat w - 1))%Z; [lia|].
  rewrite <- Z.pow_succ_r by lia. replace (Z.succ (8 * Z.of_nat w - 1)) with (8 * Z.of_nat w)%Z by lia.
  rewrite N2Z.inj_pow, nat_N_Z. change (Z.of_N 256) with (2 ^ 8)%Z. rewrite <- Z.pow_mul_r by lia. reflexivity.
Qed.

Lemma next_bytes_line l s : one_line l -> Forall is_byte s -> next_bytes (text_bytes [l] ++ s) = Some (l, s).
Proof.
  intros Hl Hs. unfold next_bytes. rewrite to_lines_text by (constructor; [exact Hl|constructor]). cbn [app].
  rewrite of_to_lines by auto. destruct (text_bytes [l] ++ s) eqn:E; [|reflexivity].
  exfalso. apply (f_equal (@length N)) in E. unfold text_bytes in E. cbn [map concat] in E. rewrite !app_length in E. cbn in E. lia.
Qed.
Lemma take_numbers (w : nat) (items : list bytes) (s : bytes) : 0 < w -> Forall (fun x => length x = w) items ->
  take_items w (length items) ((concat items ++ [10%N]) ++ s) = (items, 10%N :: s).
Proof. intros Hw H. rewrite <- app_assoc. cbn [app]. now apply take_items_ok. Qed.

Lemma get_bytes_law dt l (s : bytes) : Forall (fits dt) l ->
  vget_bytes nk dt (length l) (vput_bytes nk dt l ++ s) = Ok (l, s).
Proof.
  intros H. unfold vget_bytes, vput_bytes. rewrite <- (map_length (enc (n_codec nk dt)) l).
  rewrite take_numbers; [|apply width_pos|].
  - cbn [fst snd line_feed bind]. change (N.eqb 10 10) with true. cbn iota. cbn [bind]. rewrite map_map. f_equal. f_equal.
    rewrite <- (map_id l) at 2. apply map_ext_in. intros v Hv. rewrite Forall_forall in H. apply (Hn _ _ (H v Hv)).
  - apply Forall_map. eapply Forall_impl; [|exact H]. intros v Hv. apply (Hn _ _ Hv).
Qed.
Lemma int_items w bs : 0 < w -> Forall (index_fits w) bs ->
  map (sint_value true) (map (sint_bytes true w) bs) = bs.
Proof.
  intros Hw H. rewrite map_map. rewrite <- (map_id bs) at 2. apply map_ext_in. intros z Hz. rewrite Forall_forall in H.
  apply sint_value_bytes. apply index_range; auto.
Qed.
Lemma get_ints_bytes_law dt bs (s : bytes) : dt = "int32" \/ dt = "int64" -> Forall (index_fits (width_of dt)) (concat bs) ->
  vget_ints_bytes dt (length (concat bs)) (vput_ints_bytes dt bs ++ s) = Ok (concat bs, s).
Proof.
  intros Hd H. unfold vget_ints_bytes, vput_ints_bytes. rewrite <- (map_length (sint_bytes true (width_of dt)) (concat bs)).
  rewrite take_numbers; [|apply width_pos|apply Forall_map, Forall_forall; intros; apply sint_bytes_length].
  cbn [fst snd line_feed bind]. change (N.eqb 10 10) with true. cbn iota. cbn [bind]. f_equal. f_equal.
  rewrite <- (int_items (width_of dt) (concat bs) (width_pos dt) H) at 2. apply map_ext. intros b. unfold vint_value.
  destruct Hd as [-> | ->]; reflexivity.
Qed.
Lemma get_types_bytes_law bs (s : bytes) : Forall (index_fits 4) (concat bs) -> Forall is_byte s ->
  vget_types_bytes (length (concat bs)) (vput_ints_bytes "int32" bs ++ s) = Ok (concat bs, s).
Proof.
  intros H Hs. unfold vget_types_bytes, vput_ints_bytes. change (width_of "int32") with 4.
  rewrite <- (map_length (sint_bytes true 4) (concat bs)).
  rewrite take_numbers; [|lia|apply Forall_map, Forall_forall; intros; apply sint_bytes_length].
  cbn [fst snd]. rewrite int_items by (auto; lia).
  change (10%N :: s) with (text_bytes [""%string] ++ s). rewrite next_bytes_line by (auto; reflexivity). reflexivity.
Qed.

Lemma vbinary_ok : vport_ok (vbinary nk) fits (Forall is_byte) (fun _ => True).
Proof.
  constructor; cbn [vbinary vunt v_mode v_line v_next v_put v_get v_put_ints v_get_ints v_get_types]; auto.
  - intros l s _ H. apply Forall_app. split; [apply text_bytes_byte|exact H].
  - intros l s Hl Hs. now apply next_bytes_line.
  - intros l s. unfold text_bytes. cbn [map concat]. rewrite !app_length. cbn. lia.
  - intros dt l s H Hs. apply Forall_app. split; [|exact Hs]. unfold vput_bytes. apply Forall_app. split; [|constructor; [reflexivity|constructor]].
    apply Forall_concat_bytes, Forall_map. eapply Forall_impl; [|exact H]. intros v Hv. apply (Hn _ _ Hv).
  - intros dt l s _ H Hs _. exists 0. split; [reflexivity|]. split; [change (blanks (vbinary nk) 0 ++ s) with s; rewrite app_length; lia|]. now apply get_bytes_law.
  - intros dt bs s Hs. apply Forall_app. split; [|exact Hs]. unfold vput_ints_bytes. apply Forall_app. split; [|constructor; [reflexivity|constructor]].
    apply Forall_concat_bytes, Forall_map, Forall_forall. intros; apply sint_bytes_ok.
  - intros dt bs s Hd H Hs _. exists 0. split; [reflexivity|]. split; [change (blanks (vbinary nk) 0 ++ s) with s; rewrite app_length; lia|]. now apply get_ints_bytes_law.
  - intros bs s H Hs _. exists 0. split; [change (blanks (vbinary nk) 0 ++ s) with s; rewrite app_length; lia|]. now apply get_types_bytes_law.
Qed.
End Binary.
