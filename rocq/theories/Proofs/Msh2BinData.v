(** Sections with data of the elements in the binary MSH 2.2 files of Gmsh (C84). *)
From Coq Require Import ZArith NArith List String Ascii Bool Lia.
From Verif.Lib Require Import Base Facts Text Lines LinesFacts Bytes BytesFacts File.
From Verif.Model Require Import Core Gmsh Gmsh22 Port Gmsh22Bin.
From Verif.Spec Require Import Core Blocks Gmsh Gmsh22 Msh41 Msh2File Msh2Bin Msh4Data Msh2Data.
From Verif.Proofs Require Import Core CoreMisc Gmsh Gmsh22 Port Gmsh22Bin Msh2File Msh2Bin Msh4Data.
Import Model.Gmsh Model.Gmsh22.
Import ListNotations.
Local Open Scope list_scope.

Section Data.
Context {fl : floats} (c8 : codec fl).
Hypothesis Hfl : floats_ok fl.
Hypothesis Hc : codec_ok c8.
Implicit Types (ds : list (bdata fl)).

Lemma bsections_byte ds : Forall is_byte (flat_map (bdata_section c8 "ElementData") ds).
Proof.
  induction ds as [|x ds IH]; [constructor|]. cbn [flat_map]. change "ElementData"%string with (kind_of false).
  rewrite bsection_split, <- app_assoc. apply Forall_app. split; [apply text_bytes_byte|]. apply bbody_byte; [exact Hc|exact IH].
Qed.
Lemma element_bdata_bends ds : forall a b c d e g h i cr, Forall (fun x => bdata_ok x /\ numbered x) ds ->
  exists n, bends c8 (flat_map (bdata_section c8 "ElementData") ds) (RState a b c d e g h i cr)
    (Ok (RState a b c d e g h i (dupdate cr (map (fun x => (bd_name x, map snd (bd_rows x))) ds)))) n.
Proof.
  induction ds as [|x ds IH]; intros a b c d e g h i cr H; [exists 0; constructor|].
  inversion H as [|? ? [Hx Hn] H']; subst.
  destruct (IH a b c d e g h i (dset (bd_name x) (map snd (bd_rows x)) cr) H') as (n & R). exists (S n). cbn [flat_map].
  pose proof (bsections_byte ds) as Hb.
  change (bdata_section c8 "ElementData" x) with (bdata_section c8 (kind_of false) x).
  rewrite bsection_split, <- app_assoc. eapply (bends_cons c8 "ElementData"); [reflexivity|apply bbody_byte; [exact Hc|exact Hb]| |exact R].
  pose proof (bbody_read c8 Hc false x cr _ Hx Hn Hb) as G.
  exact (f_equal (fun y => bind y (fun r => Ok (RState a b c d e g h i (fst r), snd r))) G).
Qed.
Lemma element_bdata_fails ds : forall a b c d e g h i cr,
  Forall (fun x => bdata_ok x /\ Forall (fun r => in_range CInt (fst r)) (bd_rows x)) ds -> ~ Forall numbered ds ->
  exists n, bends c8 (flat_map (bdata_section c8 "ElementData") ds) (RState a b c d e g h i cr) (Err ReadError) n.
Proof.
  induction ds as [|x ds IH]; intros a b c d e g h i cr H Hx; [exfalso; apply Hx; constructor|].
  inversion H as [|? ? [Hd Ht] H']; subst. pose proof (bsections_byte ds) as Hb. cbn [flat_map].
  change (bdata_section c8 "ElementData" x) with (bdata_section c8 (kind_of false) x). rewrite bsection_split, <- app_assoc.
  destruct (list_eq_dec Z.eq_dec (map fst (bd_rows x)) (map (fun k => Z.of_nat (k + 1)) (seq 0 (length (bd_rows x))))) as [Hn|Hn].
  - destruct (IH a b c d e g h i (dset (bd_name x) (map snd (bd_rows x)) cr) H') as (n & R).
    { intros Hf. apply Hx. now constructor. }
    exists (S n). eapply (bends_cons c8 "ElementData"); [reflexivity|apply bbody_byte; [exact Hc|exact Hb]| |exact R].
    pose proof (bbody_read c8 Hc false x cr _ Hd Hn Hb) as G.
    exact (f_equal (fun y => bind y (fun r => Ok (RState a b c d e g h i (fst r), snd r))) G).
  - exists 0. eapply (bends_fail c8 "ElementData"); [reflexivity|apply bbody_byte; [exact Hc|exact Hb]|].
    pose proof (bbody_fails c8 Hc false x cr _ Hd Ht Hn Hb) as G.
    exact (f_equal (fun y => bind y (fun r => Ok (RState a b c d e g h i (fst r), snd r))) G).
Qed.
Theorem file22_with_bdata (f : file22 fl) gs ds : file22_ok f -> groups_ok f gs -> element_bdata_ok f ds ->
  exists names, (forall k, dget k names = dget k (f2_names f)) /\
    read22_file c8 (file22_data_bytes c8 f gs ds) =
      if consecutive_dec f then
        if same_counts f then
          if all_numbered ds then
            if tags_agree 0 f && tags_agree 1 f && match ds with [] => true | _ => two_each (file22_blocks f) end
            then Ok (file22_bdata_mesh f ds names) else Err ValueError
          else Err ReadError
        else Err ValueError
      else Err ReadError.
Proof.
  intros W G [N H]. set (cr := map (fun x => (bd_name x, map snd (bd_rows x))) ds).
  destruct (file22_bin_ends c8 Hfl Hc f gs (flat_map (bdata_section c8 "ElementData") ds)
              (if all_numbered ds then Ok cr else Err ReadError) W G (bsections_byte ds)) as (names & H1 & H2).
  - intros a b c d e g h i. destruct (all_numbered ds) as [Hnum|Hnum]; cbn [bind].
    + destruct (element_bdata_bends ds a b c d e g h i []) as (n & R).
      { apply Forall_forall. intros x Hx. rewrite Forall_forall in H, Hnum. split; [now apply H|now apply Hnum]. }
      rewrite dupdate_fresh in R by (unfold dkeys; rewrite map_map; exact N). exists n. exact R.
    + apply element_bdata_fails; [|exact Hnum]. eapply Forall_impl; [|exact H]. intros x (A & _ & B). split; [exact A|exact B].
  - intros cr' E. destruct (all_numbered ds); [|discriminate]. injection E as <-.
    apply Forall_map. eapply Forall_impl; [|exact H]. intros x (_ & E & _). cbn [snd]. now rewrite map_length.
  - exists names. split; [exact H1|]. unfold file22_data_bytes. rewrite H2.
    destruct (consecutive_dec f), (same_counts f), (all_numbered ds); try reflexivity. cbn [bind].
    unfold with_cells, file22_bdata_mesh, cr. rewrite map_map. now destruct ds.
Qed.
End Data.
