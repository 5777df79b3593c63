(** Unknown sections anywhere in the MSH 4.0 text files of Gmsh (C87). *)
From Coq Require Import ZArith List String Ascii Bool Lia.
From Verif.Lib Require Import Base Facts Text TextFacts Lines LinesFacts.
From Verif.Model Require Import Core Gmsh Gmsh22 Port Msh41 Msh40.
From Verif.Spec Require Import Core Blocks Gmsh Gmsh22 Msh41 Msh40 Msh2File GmshFile Msh40File GmshSkip.
From Verif.Proofs Require Import Gmsh Gmsh22 Port Msh41 Msh41File Msh40 GmshFile Msh40File GmshSkip.
Import Model.Gmsh Model.Port Model.Msh41 Model.Msh40 Spec.Msh41 Spec.Msh40.
Import ListNotations.
Local Open Scope list_scope.

Section Text40.
Context {fl : floats}.
Hypothesis Hfl : floats_ok fl.
Notation p := (ascii_port (fl := fl)).

Lemma other_read40 s rest (st : state40) : other s ->
  read_section40 p (fst s) (snd s ++ ("$End" ++ fst s)%string :: rest) st = Ok (st, rest).
Proof.
  intros (Hw & Hk & Hc). unfold read_section40.
  rewrite (known_not _ "PhysicalNames"), (known_not _ "Entities"), (known_not _ "Nodes"), (known_not _ "Elements"), (known_not _ "Periodic"),
    (known_not _ "NodeData"), (known_not _ "ElementData") by first [exact Hk | cbn; tauto].
  destruct s as [t c]. cbn [fst snd ascii_port skip_end] in *. rewrite skip_to_end by assumption. now destruct st.
Qed.
Lemma next_other40 t y : word t = true -> next_section40 p (("$" ++ t)%string :: y) = Ok (Some (t, y)).
Proof.
  intros Hw. change (next_section40 p ?x) with (next40 x). unfold next40, section_line. cbn [append].
  change (Ascii.eqb "$" "$") with true. cbn iota. now rewrite strip_word by exact Hw.
Qed.
Lemma others_lead40 ss rest st st' : Forall other ss -> leads40 p solid rest st st' -> leads40 p solid (flat_map section_lines ss ++ rest) st st'.
Proof.
  intros H Hr. induction H as [|s ss Hs H (_ & n & IH)]; [exact Hr|]. cbn [flat_map]. unfold section_lines at 1. cbn [app].
  pose proof Hs as (Hw & _). split.
  - apply solid_cons. apply blank_word. apply word_no_space in Hw. destruct Hw as [Hw _]. cbn. exact Hw.
  - exists (S n). rewrite <- !app_assoc. cbn [app].
    pose proof (runs40_cons p (fst s) (snd s ++ [("$End" ++ fst s)%string]) (flat_map section_lines ss ++ rest) st st st' n) as C.
    rewrite <- !app_assoc in C. cbn [app] in C. apply C.
    + apply (next_other40 (fst s)). exact Hw.
    + discriminate.
    + now apply other_read40.
    + exact IH.
Qed.
Theorem mixed40_read u (g : gfile fl) : (forall i, Forall other (u i)) -> gfile40_ok g ->
  (forall ks, gf_links g = Some ks -> Forall glink40_ok ks /\ in_range CInt (Z.of_nat (length ks))) ->
  exists names, (forall k, dget k names = dget k (gf_names g)) /\
    read40 p (mixed40 u g) = if groups_agree g then Ok (file_mesh40 g names) else Err ValueError.
Proof.
  intros Hu W K.
  destruct (mixed_file40_tail p _ _ (ascii_port_ok Hfl) (ascii_gnodes Hfl) (between u) g (between u 5) [] []) as (names & H1 & H2).
  - intros i rest st st'. apply others_lead40, Hu.
  - exact W.
  - intros ks E. destruct (K ks E) as [K1 K2]. apply (ascii_periodic Hfl); [|now rewrite map_length].
    apply Forall_map. eapply Forall_impl; [|exact K1]. apply glink40_plain.
  - intros. rewrite <- (app_nil_r (between u 5)). apply others_lead40; [apply Hu|]. apply (leads40_nil _ _ _ (ascii_port_ok Hfl)).
  - constructor.
  - constructor.
  - constructor.
  - exists names. split; [exact H1|exact H2].
Qed.
Lemma comments40 cs ls : Forall (fun c => closed ("Comments"%string, c)) cs -> read40 p (comments cs ++ ls) = read40 p ls.
Proof.
  intros Hc. unfold read40. change (get_header p ?x) with (get_header_ascii x). unfold get_header_ascii. now rewrite header_comments.
Qed.
End Text40.
