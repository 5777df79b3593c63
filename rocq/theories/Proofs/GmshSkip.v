(** Comments and unknown sections in MSH text files (C87). *)
From Coq Require Import ZArith List String Ascii Bool Lia.
From Verif.Lib Require Import Base Facts Text TextFacts Lines LinesFacts Runs.
From Verif.Model Require Import Core Gmsh Gmsh22 Port Msh41.
From Verif.Spec Require Import Core Blocks Gmsh Gmsh22 Msh41 Msh2File GmshFile Msh2Data GmshSkip.
From Verif.Proofs Require Import Core Gmsh Gmsh22 Gmsh22File Msh2File Port Msh41File GmshFile.
Import Model.Gmsh Model.Gmsh22.
Import ListNotations.
Local Open Scope list_scope.

Lemma skip_to_end t c rest : word t = true -> closed (t, c) -> skip_to (end_line t) (c ++ ("$End" ++ t)%string :: rest) = rest.
Proof.
  intros Hw H. unfold closed in H. cbn [fst snd] in H. induction H as [|l c Hl H IH]; cbn [app].
  - apply skip_to_here. apply word_no_space in Hw. destruct Hw as [Hw _]. cbn. exact Hw.
  - cbn [skip_to]. destruct (String.eqb_spec (strip l) (end_line t)) as [E|E]; [contradiction|exact IH].
Qed.
Lemma skip_comments_more ls : forall f f', length ls <= f -> length ls <= f' -> skip_comments f ls = skip_comments f' ls.
Proof.
  assert (L : forall s ls, length (skip_to s ls) <= pred (length ls)).
  { intros s l. induction l as [|x l IH]; cbn [skip_to length pred]; [lia|]. destruct (String.eqb (strip x) s); lia. }
  assert (G : forall n ls, length ls <= n -> forall f f', length ls <= f -> length ls <= f' -> skip_comments f ls = skip_comments f' ls).
  { induction n as [|n IH]; intros l Hn f f' Hf Hf'.
    - destruct l; [|cbn in Hn; lia]. now destruct f, f'.
    - destruct l as [|x l]; [now destruct f, f'|]. cbn [length] in *. destruct f as [|f]; [lia|]. destruct f' as [|f']; [lia|].
      cbn [skip_comments line1 hd tl]. destruct (String.eqb (strip x) "$Comments"); [|reflexivity].
      pose proof (L "$EndComments"%string l). apply IH; lia. }
  exact (G _ ls (le_n _)).
Qed.
Lemma comments_skipped cs ls : Forall (fun c => closed ("Comments"%string, c)) cs ->
  skip_comments (length (comments cs ++ ls)) (comments cs ++ ls) = skip_comments (length ls) ls.
Proof.
  induction 1 as [|c cs Hc H IH]; [reflexivity|]. unfold comments. cbn [flat_map]. fold (comments cs).
  unfold section_lines. cbn [fst snd]. change ("$" ++ "Comments")%string with "$Comments"%string.
  change (("$Comments"%string :: ?a) ++ ?b) with ("$Comments"%string :: (a ++ b)) at 1. cbn [app length].
  cbn [skip_comments line1 hd tl]. rewrite (eq_refl : String.eqb (strip "$Comments") "$Comments" = true).
  rewrite <- !app_assoc. cbn [app].
  change "$EndComments"%string with (end_line "Comments"). rewrite (skip_to_end "Comments" c _ eq_refl Hc).
  rewrite <- IH. apply skip_comments_more; [|lia]. rewrite !app_length. cbn [length]. rewrite app_length. lia.
Qed.
Lemma header_comments cs ls : Forall (fun c => closed ("Comments"%string, c)) cs -> read_header (comments cs ++ ls) = read_header ls.
Proof. intros H. unfold read_header. now rewrite comments_skipped. Qed.

Lemma known_not s t : In t known -> ~ In s known -> String.eqb s t = false.
Proof. intros H H'. apply String.eqb_neq. intros ->. contradiction. Qed.

Section Text.
Context {fl : floats}.
Lemma other_read s rest (st : rstate fl) : other s ->
  read_section (fst s) (snd s ++ ("$End" ++ fst s)%string :: rest) st = Ok (st, rest).
Proof.
  intros (Hw & Hk & Hc). unfold read_section.
  rewrite (known_not _ "PhysicalNames"), (known_not _ "Nodes"), (known_not _ "Elements"), (known_not _ "Periodic"),
    (known_not _ "NodeData"), (known_not _ "ElementData") by first [exact Hk | cbn; tauto].
  destruct s as [t c]. cbn [fst snd] in *. rewrite skip_to_end by assumption. now destruct st.
Qed.
Lemma read_more f : forall f' ls (st : rstate fl) r, read_sections f ls st = r -> r <> Err OutOfFuel -> f <= f' -> read_sections f' ls st = r.
Proof.
  induction f as [|f IH]; intros f' ls st r E Hr Hf; [cbn in E; congruence|]. destruct f' as [|f']; [lia|].
  cbn [read_sections] in *. destruct (drop_blank ls) as [|[|c l] rest]; auto. destruct (negb (Ascii.eqb c "$")); auto.
  destruct (read_section (strip l) rest st) as [[st' rest']|e]; [|exact E]. cbn [bind fst snd] in *. eapply IH; eauto. lia.
Qed.
Lemma section_step s f rest (st : rstate fl) : other s -> read_sections (S f) (section_lines s ++ rest) st = read_sections f rest st.
Proof.
  intros Ho. pose proof Ho as (Hw & _). unfold section_lines. cbn [app read_sections].
  assert (B : forall y, drop_blank (("$" ++ fst s)%string :: y) = ("$" ++ fst s)%string :: y).
  { intros y. cbn [drop_blank]. replace (blank ("$" ++ fst s)%string) with false; [reflexivity|]. symmetry.
    apply blank_word. apply word_no_space in Hw. destruct Hw as [Hw _]. cbn. now rewrite Hw. }
  rewrite B. cbn [append]. change (negb (Ascii.eqb "$" "$")) with false. cbn iota. rewrite strip_word by exact Hw.
  rewrite <- app_assoc. cbn [app]. pose proof (other_read s rest st Ho) as E. cbn [append] in E. rewrite E. reflexivity.
Qed.
Lemma sections_skipped ss (body : list string) r : Forall other ss -> read22 (fl := fl) body = r -> r <> Err OutOfFuel ->
  read22 (flat_map section_lines ss ++ body) = r.
Proof.
  intros H E Hr. unfold read22 in *.
  assert (G : forall f, S (length body) + length ss <= f -> read_sections f (flat_map section_lines ss ++ body) rstate0 = read_sections (S (length body)) body (rstate0 (fl := fl))).
  { assert (N : read_sections (S (length body)) body (rstate0 (fl := fl)) <> Err OutOfFuel).
    { intros X. rewrite X in E. cbn [bind] in E. congruence. }
    clear E Hr. induction H as [|s ss Hs H IH]; intros f Hf.
    - eapply read_more; [reflexivity|exact N|]. cbn in Hf. lia.
    - cbn [length] in Hf. destruct f as [|f]; [lia|]. cbn [flat_map]. rewrite <- app_assoc, section_step by assumption. apply IH. lia. }
  rewrite G; [exact E|]. rewrite app_length. assert (L : length ss <= length (flat_map section_lines ss)).
  { clear. induction ss as [|s ss IH]; [cbn; lia|]. cbn [flat_map length]. rewrite app_length. unfold section_lines at 1. cbn [length]. lia. }
  lia.
Qed.
Hypothesis Hfl : floats_ok fl.

(** Version 4.1 *)
Lemma other_read41 s rest (st : state41) : other s ->
  read_section41 (ascii_port (fl := fl)) (fst s) (snd s ++ ("$End" ++ fst s)%string :: rest) st = Ok (st, rest).
Proof.
  intros (Hw & Hk & Hc). unfold read_section41.
  rewrite (known_not _ "PhysicalNames"), (known_not _ "Entities"), (known_not _ "Nodes"), (known_not _ "Elements"), (known_not _ "Periodic"),
    (known_not _ "NodeData"), (known_not _ "ElementData") by first [exact Hk | cbn; tauto].
  destruct s as [t c]. cbn [fst snd ascii_port skip_end] in *. rewrite skip_to_end by assumption. now destruct st.
Qed.
Lemma next_other t y : word t = true -> next_section (ascii_port (fl := fl)) (("$" ++ t)%string :: y) = Ok (Some (t, y)).
Proof.
  intros Hw. change (next_section (ascii_port (fl := fl)) ?x) with (next41 x). unfold next41.
  assert (B : drop_blank (("$" ++ t)%string :: y) = ("$" ++ t)%string :: y).
  { cbn [drop_blank]. replace (blank ("$" ++ t)%string) with false; [reflexivity|]. symmetry.
    apply blank_word. apply word_no_space in Hw. destruct Hw as [Hw _]. cbn. now rewrite Hw. }
  rewrite B. unfold section_line. cbn [append]. change (negb (Ascii.eqb "$" "$")) with false. cbn iota. now rewrite strip_word by exact Hw.
Qed.
Lemma others_end ss rest st r : Forall other ss -> ends (ascii_port (fl := fl)) solid rest st r ->
  ends (ascii_port (fl := fl)) solid (flat_map section_lines ss ++ rest) st r.
Proof.
  intros H Hr. induction H as [|s ss Hs H (_ & n & Hn & IH)]; [exact Hr|]. cbn [flat_map]. unfold section_lines at 1. cbn [app].
  pose proof Hs as (Hw & _). split; [|exists (S n); split].
  - apply solid_cons. apply blank_word. apply word_no_space in Hw. destruct Hw as [Hw _]. cbn. exact Hw.
  - cbn [length]. rewrite <- app_assoc, app_length. cbn [unt ascii_port] in *. lia.
  - intros f Hf. destruct f as [|f]; [lia|]. cbn [read_sections41]. rewrite next_other by exact Hw. cbn [bind].
    rewrite <- !app_assoc. cbn [app]. rewrite other_read41 by exact Hs. cbn [bind fst snd]. apply IH. lia.
Qed.
Theorem mixed41_read u (g : gfile fl) : (forall i, Forall other (u i)) -> gfile_ok g ->
  exists names, (forall k, dget k names = dget k (gf_names g)) /\
    read41 ascii_port (mixed41 u g) = if groups_agree g then Ok (file_mesh g names) else Err ValueError.
Proof.
  intros Hu W.
  destruct (mixed_file_tail (ascii_port (fl := fl)) _ _ (ascii_port_ok Hfl) (between u) g (between u 5) [] []) as (names & H1 & H2).
  - intros i rest st r. apply others_end, Hu.
  - exact W.
  - intros. rewrite <- (app_nil_r (between u 5)). apply others_end; [apply Hu|]. apply (leads_ends _ _ _ (ascii_port_ok Hfl)).
    apply (leads_nil _ _ _ (ascii_port_ok Hfl)).
  - constructor.
  - constructor.
  - exists names. split; [exact H1|exact H2].
Qed.
Lemma comments41 cs ls : Forall (fun c => closed ("Comments"%string, c)) cs -> read41 (ascii_port (fl := fl)) (comments cs ++ ls) = read41 ascii_port ls.
Proof.
  intros Hc. unfold read41. change (get_header (ascii_port (fl := fl)) ?x) with (get_header_ascii x). unfold get_header_ascii. now rewrite header_comments.
Qed.
End Text.
