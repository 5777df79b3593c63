(** Files as byte strings, and text files as sequences of lines. *)
From Verif.Lib Require Import Base Facts Text TextFacts Lines Bytes.
From Coq Require Import NArith.

Definition newline : ascii := ascii_of_nat 10.

(** Every line followed by a line feed. *)
Fixpoint text_of (ls : list string) : string :=
  match ls with
  | [] => ""
  | l :: ls' => (l ++ String newline (text_of ls'))%string
  end.

(** Iterating over a text file; a last line without line feed is a line.  (The universal
    newline translation of CR and CR LF is not modelled.) *)
Fixpoint lines_acc (cur : string) (s : string) : list string :=
  match s with
  | EmptyString => match cur with EmptyString => [] | _ => [cur] end
  | String c s' => if Ascii.eqb c newline then cur :: lines_acc "" s'
                   else lines_acc (cur ++ String c "")%string s'
  end.
Definition lines_of (s : string) : list string := lines_acc "" s.

Fixpoint string_bytes (s : string) : bytes :=
  match s with EmptyString => [] | String c s' => N_of_ascii c :: string_bytes s' end.
Fixpoint bytes_string (b : bytes) : string :=
  match b with [] => "" | x :: b' => String (ascii_of_N x) (bytes_string b') end.

Lemma bytes_string_bytes s : bytes_string (string_bytes s) = s.
Proof. induction s as [|c s IH]; cbn; [reflexivity|]. now rewrite ascii_N_embedding, IH. Qed.
Lemma string_bytes_length s : length (string_bytes s) = String.length s.
Proof. induction s; cbn; auto. Qed.
Lemma string_bytes_app s t : string_bytes (s ++ t)%string = string_bytes s ++ string_bytes t.
Proof. induction s; cbn; auto. now f_equal. Qed.

Definition one_line (s : string) : Prop := char_in newline s = false.

Lemma lines_acc_line cur l s : one_line l ->
  lines_acc cur (l ++ String newline s)%string = (cur ++ l)%string :: lines_acc "" s.
Proof.
  unfold one_line. revert cur; induction l as [|c l IH]; intros cur H; cbn [append lines_acc].
  - cbn [append lines_acc]. rewrite Ascii.eqb_refl. f_equal. clear. induction cur; cbn; congruence.
  - cbn [char_in] in H. apply orb_false_iff in H. destruct H as [Hc Hl].
    assert (E : Ascii.eqb c newline = false) by (rewrite Ascii.eqb_sym; exact Hc || exact Hc). rewrite E.
    rewrite IH by auto. f_equal. clear. induction cur; cbn; congruence.
Qed.
Lemma lines_of_text ls : Forall one_line ls -> lines_of (text_of ls) = ls.
Proof.
  unfold lines_of. induction 1 as [|l ls Hl H IH]; [reflexivity|]. cbn [text_of].
  rewrite lines_acc_line by auto. cbn. now f_equal.
Qed.

(** Floating point numbers in files: a fixed number of bytes each.  Narrowing conversions
    lose information; [exact v] says that [v] survives. *)
Record codec (F : Type) : Type := Codec { enc : F -> bytes; dec : bytes -> F }.
Arguments Codec {F} _ _.
Arguments enc {F} _ _.
Arguments dec {F} _ _.
Definition codec_width {F} (c : codec F) (w : nat) : Prop := forall v, length (enc c v) = w.
Definition exact {F} (c : codec F) (v : F) : Prop := dec c (enc c v) = v.

(** Instance used for examples: integers in two's complement. *)
Definition int_codec (w : nat) : codec Z := Codec (sint_bytes false w) (sint_value false).

Lemma char_in_newline_word s : no_space s = true -> one_line s.
Proof.
  unfold one_line. induction s as [|c s IH]; cbn [no_space char_in]; [reflexivity|]. intros H.
  apply andb_true_iff in H. destruct H as [Hc Hs]. rewrite IH by auto. rewrite orb_false_r.
  destruct (Ascii.eqb_spec newline c); [subst; discriminate|reflexivity].
Qed.
Lemma one_line_app s t : one_line s -> one_line t -> one_line (s ++ t)%string.
Proof.
  unfold one_line. induction s as [|c s IH]; cbn [append char_in]; auto. intros H Ht.
  apply orb_false_iff in H. destruct H as [-> Hs]. cbn. auto.
Qed.
Lemma one_line_row ts : forallb word ts = true -> one_line (row_line ts).
Proof.
  unfold row_line, join. induction ts as [|t ts IH]; cbn [forallb String.concat]; [reflexivity|].
  intros H. apply andb_true_iff in H. destruct H as [Ht Hs].
  apply word_no_space in Ht. destruct Ht as [Ht _]. destruct ts; [now apply char_in_newline_word|].
  apply one_line_app; [now apply char_in_newline_word|]. apply one_line_app; [reflexivity|]. auto.
Qed.
