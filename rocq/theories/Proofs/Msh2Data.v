(** Sections with data of the elements in the MSH 2.2 text files of Gmsh (C83). *)
From Coq Require Import ZArith List String Ascii Bool Lia.
From Verif.Lib Require Import Base Facts Text Lines LinesFacts Runs.
From Verif.Model Require Import Core Gmsh Gmsh22.
From Verif.Spec Require Import Core Blocks Gmsh Gmsh22 Msh2File Msh4Data Msh2Data.
From Verif.Proofs Require Import Core CoreMisc Gmsh Gmsh22 Gmsh22File Msh2File Msh4Data.
Import Model.Gmsh Model.Gmsh22.
Import ListNotations.
Local Open Scope list_scope.

Section Data.
Context {fl : floats}.
Hypothesis Hfl : floats_ok fl.

Lemma element_data_runs (ds : list (node_data fl)) : forall a b c d e g h i cr,
  Forall (fun x => plain_name (nd_name x) /\ exists nc, In nc [1; 3; 9] /\ Forall (fun r => length (snd r) = nc) (nd_rows x)) ds ->
  exists n, runs (flat_map (data_section "ElementData") ds) (RState a b c d e g h i cr)
    (RState a b c d e g h i (dupdate cr (map (fun x => (nd_name x, map snd (nd_rows x))) ds))) n.
Proof.
  induction ds as [|x ds IH]; intros a b c d e g h i cr H; [exists 0; constructor|].
  inversion H as [|? ? Hx H']; subst.
  destruct (IH a b c d e g h i (dset (nd_name x) (map snd (nd_rows x)) cr) H') as (n & Hn). exists (S n). cbn [flat_map].
  change (data_section "ElementData" x) with (("$" ++ "ElementData")%string :: tl (data_section "ElementData" x)).
  change ((("$" ++ "ElementData")%string :: ?u) ++ ?y) with (("$" ++ "ElementData")%string :: (u ++ y)).
  eapply (runs_cons "ElementData"); [reflexivity| |exact Hn].
  change (read_section "ElementData" ?ls (RState a b c d e g h i cr)) with
    (do r <- read_data "ElementData" cr ls; Ok (@RState fl a b c d e g h i (fst r), snd r)).
  rewrite (data_section_read Hfl false x cr _ Hx). reflexivity.
Qed.
Theorem file22_with_data (f : file22 fl) ds : file22_ok f -> element_data_ok f ds ->
  exists body names, read_header (file22_data_lines f ds) = Ok ("2.2"%string, true, body) /\
    (forall k, dget k names = dget k (f2_names f)) /\
    read22 body = if tags_agree 0 f && tags_agree 1 f && match ds with [] => true | _ => two_each (file22_blocks f) end
                  then Ok (file22_data_mesh f ds names) else Err ValueError.
Proof.
  intros W [N H].
  destruct (file22_tail Hfl f (flat_map (data_section "ElementData") ds) (map (fun x => (nd_name x, map snd (nd_rows x))) ds) W) as (body & names & H1 & H2 & H3).
  - intros a b c d e g h i. destruct (element_data_runs ds a b c d e g h i []) as (n & R).
    { eapply Forall_impl; [|exact H]. cbn. tauto. }
    rewrite dupdate_fresh in R by (unfold dkeys; rewrite map_map; exact N). exists n. exact R.
  - apply Forall_map. eapply Forall_impl; [|exact H]. intros x (_ & _ & E & _). cbn [snd]. now rewrite map_length.
  - exists body, names. split; [exact H1|]. split; [exact H2|]. rewrite H3. unfold with_cells, file22_data_mesh. rewrite map_map. now destruct ds.
Qed.
End Data.
