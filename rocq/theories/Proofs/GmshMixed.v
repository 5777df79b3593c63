(** Unknown sections anywhere in the MSH 2.2 text files of Gmsh (C87). *)
From Coq Require Import ZArith List String Ascii Bool Lia.
From Verif.Lib Require Import Base Facts Text TextFacts Lines LinesFacts Runs.
From Verif.Model Require Import Core Gmsh Gmsh22.
From Verif.Spec Require Import Core Blocks Gmsh Gmsh22 Msh2File Msh2Data GmshSkip.
From Verif.Proofs Require Import Core CoreMisc Blocks Gmsh Gmsh22 Gmsh22File Msh2File GmshSkip.
Import Model.Gmsh Model.Gmsh22.
Import ListNotations.
Local Open Scope list_scope.

Section Mixed.
Context {fl : floats}.
Hypothesis Hfl : floats_ok fl.
Variable u : nat -> list (string * list string).
Hypothesis Hu : forall i, Forall other (u i).

Lemma between_runs i rest (st st' : rstate fl) : (exists n, runs rest st st' n) -> exists n, runs (between u i ++ rest) st st' n.
Proof.
  intros (n & R). unfold between. induction (Hu i) as [|s ss Hs H (m & IH)]; [exists n; exact R|].
  exists (S m). cbn [flat_map]. unfold section_lines at 1. cbn [app]. rewrite <- app_assoc.
  eapply runs_cons; [apply Hs| |exact IH]. rewrite <- app_assoc. cbn [app]. now apply other_read.
Qed.
Lemma mixed_data_runs ds : forall i (st : rstate fl), Forall plain_name (map nd_name ds) ->
  Forall (fun d => exists nc, In nc [1; 3; 9] /\ Forall (fun r => length (snd r) = nc) (nd_rows d)) ds ->
  exists n, runs (mixed_data u i ds) st
    (RState (s_tags st) (s_points st) (s_cells st) (s_phys st) (s_geom st) (s_names st) (s_periodic st)
       (dupdate (s_pdata st) (map (fun d => (nd_name d, map snd (nd_rows d))) ds)) (s_craw st)) n.
Proof.
  induction ds as [|d ds IH]; intros i st Hk Hr; [exists 0; destruct st; constructor|].
  cbn [map] in Hk. inversion Hk as [|? ? Hk1 Hk2]; subst. inversion Hr as [|? ? Hr1 Hr2]; subst. cbn [mixed_data].
  set (fin := RState _ _ _ _ _ _ _ _ _).
  destruct (between_runs i (mixed_data u (S i) ds)
    (RState (s_tags st) (s_points st) (s_cells st) (s_phys st) (s_geom st) (s_names st) (s_periodic st)
       (dset (nd_name d) (map snd (nd_rows d)) (s_pdata st)) (s_craw st)) fin) as (n & R); [exact (IH (S i) _ Hk2 Hr2)|].
  destruct (data_runs Hfl [d] st (between u i ++ mixed_data u (S i) ds) fin n) as (m & R'); [now constructor|now constructor|exact R|].
  cbn [flat_map] in R'. rewrite app_nil_r in R'. exists m. exact R'.
Qed.

Theorem mixed22_read (f : file22 fl) : file22_ok f ->
  exists body names, read_header (mixed22 u f) = Ok ("2.2"%string, true, body) /\
    (forall k, dget k names = dget k (f2_names f)) /\
    read22 body = if tags_agree 0 f && tags_agree 1 f then Ok (file22_mesh f names) else Err ValueError.
Proof.
  intros W. pose proof W as [[k1 k1'] [k2 k2'] k3 k4 k5 [k6 k6'] k7].
  set (tags := file22_tags f). set (els := f2_elements f).
  set (bs := regroup (map (element_cell tags) els)).
  set (td := group_tags (tagged els)).
  set (ps := option_map (map shift_link) (f2_links f)).
  set (pd := map (fun d => (nd_name d, map snd (nd_rows d))) (f2_data f)).
  assert (Hk4 : Forall (element_ok tags) els) by (eapply Forall_impl; [|exact k4]; cbn; tauto).
  assert (Hc3 : Forall (fun p => length p = 3) (map snd (f2_nodes f))).
  { apply Forall_map. eapply Forall_impl; [|exact k3]. cbn. tauto. }
  assert (Ht1 : Forall (fun t => 1 <= t)%Z tags).
  { unfold tags, file22_tags. apply Forall_map. eapply Forall_impl; [|exact k3]. cbn. lia. }
  assert (Hne : tags <> []) by (unfold tags, file22_tags; destruct (f2_nodes f); [congruence|discriminate]).
  assert (Hd7 : Forall (fun d => exists nc, In nc [1; 3; 9] /\ Forall (fun r => length (snd r) = nc) (nd_rows d)) (f2_data f)).
  { eapply Forall_impl; [|exact k7]. cbn. tauto. }
  set (fin := fun nm => RState tags (map snd (f2_nodes f)) bs (tag_column 0 td) (tag_column 1 td) nm ps pd []).
  set (D := mixed_data u 5 (f2_data f)).
  set (links := match f2_links f with
       | Some ps => ["$Periodic"; str_of_nat (length ps)]%string ++ flat_map link_lines ps ++ ["$EndPeriodic"%string]
       | None => [] end).
  set (tail := ["$Nodes"; str_of_nat (length (f2_nodes f))]%string ++ map node_line (f2_nodes f) ++ ["$EndNodes"%string] ++ between u 2
    ++ ["$Elements"; str_of_nat (length (f2_elements f))]%string ++ map element_line (f2_elements f) ++ ["$EndElements"%string] ++ between u 3
    ++ links ++ between u 4 ++ D).
  assert (T : forall nm, exists n, runs tail (RState [] [] [] [] [] nm None [] []) (fin nm) n).
  { intros nm.
    assert (P3 : exists n, runs (between u 4 ++ D) (RState tags (map snd (f2_nodes f)) bs (tag_column 0 td) (tag_column 1 td) nm ps [] []) (fin nm) n).
    { apply between_runs.
      destruct (mixed_data_runs (f2_data f) 5 (RState tags (map snd (f2_nodes f)) bs (tag_column 0 td) (tag_column 1 td) nm ps [] []) k6' Hd7) as (n3 & R3).
      cbn [s_tags s_points s_cells s_phys s_geom s_names s_periodic s_pdata s_craw] in R3. fold pd in R3.
      rewrite dupdate_nil in R3 by (unfold pd, dkeys; rewrite map_map; exact k6). exists n3. exact R3. }
    assert (P2 : exists n, runs (between u 3 ++ links ++ between u 4 ++ D)
       (RState tags (map snd (f2_nodes f)) bs (tag_column 0 td) (tag_column 1 td) nm None [] []) (fin nm) n).
    { apply between_runs. destruct P3 as (n3 & R3). unfold links, fin, ps in *. destruct (f2_links f) as [l|] eqn:El; [|exists n3; exact R3].
      exists (S n3).
      assert (Ew : ["$Periodic"; str_of_nat (length l)]%string ++ flat_map link_lines l ++ ["$EndPeriodic"%string]
                   = write_periodic (map shift_link l)).
      { unfold write_periodic. now rewrite links_lines, map_length. }
      rewrite Ew. change (write_periodic (map shift_link l)) with (("$" ++ "Periodic")%string :: tl (write_periodic (map shift_link l))).
      cbn [app]. eapply (runs_cons "Periodic" (tl (write_periodic (map shift_link l)))); [reflexivity| |exact R3].
      rewrite sec_periodic. rewrite (read_periodic_ok Hfl); [reflexivity|]. apply Forall_map.
      eapply Forall_impl; [|exact (k5 _ eq_refl)]. intros p Hp. exact Hp. }
    destruct P2 as (n2 & R2).
    assert (P1 : exists n, runs (between u 2 ++ ["$Elements"; str_of_nat (length (f2_elements f))]%string ++ map element_line (f2_elements f) ++ ["$EndElements"%string]
       ++ between u 3 ++ links ++ between u 4 ++ D)
       (RState tags (map snd (f2_nodes f)) [] [] [] nm None [] []) (fin nm) n).
    { apply between_runs. exists (S n2). set (rest := between u 3 ++ _) in *.
      replace (["$Elements"; str_of_nat (length (f2_elements f))]%string ++ map element_line (f2_elements f) ++ ["$EndElements"%string] ++ rest)
        with (("$" ++ "Elements")%string :: (str_of_nat (length els) :: map element_line els ++ ["$EndElements"%string]) ++ rest)
        by (cbn [app]; now rewrite <- app_assoc).
      eapply (runs_cons "Elements"); [reflexivity| |exact R2].
      destruct (read_elements_spec tags els rest Hne k2' Ht1 Hk4) as (p & g & Hr & -> & ->).
      rewrite sec_elements. cbn [app]. rewrite <- app_assoc. cbn [app]. rewrite Hr. reflexivity. }
    destruct P1 as (n1 & R1). exists (S n1). unfold tail.
    set (rest := between u 2 ++ _) in *.
    replace (["$Nodes"; str_of_nat (length (f2_nodes f))]%string ++ map node_line (f2_nodes f) ++ ["$EndNodes"%string] ++ rest)
      with (("$" ++ "Nodes")%string :: (str_of_nat (length (f2_nodes f)) :: map node_line (f2_nodes f) ++ ["$EndNodes"%string]) ++ rest)
      by (cbn [app]; now rewrite <- app_assoc).
    eapply (runs_cons "Nodes"); [reflexivity| |exact R1].
    pose proof (node_rows_ok Hfl tags (map snd (f2_nodes f)) rest) as Hn.
    unfold tags, file22_tags in Hn. rewrite !map_length in Hn. specialize (Hn eq_refl Hc3). rewrite combine_self in Hn.
    rewrite sec_nodes. cbn [app]. rewrite <- app_assoc. cbn [app]. unfold node_line. rewrite Hn. reflexivity. }
  assert (B : exists names n, (forall k, dget k names = dget k (f2_names f)) /\
     runs (between u 0 ++ write_physical_names (f2_names f) ++ between u 1 ++ tail) rstate0 (fin names) n).
  { destruct (f2_names f) as [|e es] eqn:En.
    - destruct (between_runs 0 (between u 1 ++ tail) rstate0 (fin [])) as (n & R); [apply between_runs; exact (T [])|]. exists [], n. split; auto.
    - destruct (physical_names_ok (e :: es) (between u 1 ++ tail)) as (fd & Hr & Hg & Hh); auto; [discriminate|].
      destruct (between_runs 1 tail _ _ (T fd)) as (n & R).
      destruct (between_runs 0 (write_physical_names (e :: es) ++ between u 1 ++ tail) rstate0 (fin fd)) as (m & R'); [|exists fd, m; split; auto].
      exists (S n).
      destruct (write_physical_names (e :: es)) as [|h w] eqn:Ew; [discriminate|]. cbn [hd] in Hh. subst h.
      change ("$PhysicalNames"%string) with ("$" ++ "PhysicalNames")%string. cbn [app].
      eapply (runs_cons "PhysicalNames" w); [reflexivity| |exact R].
      unfold rstate0. rewrite sec_names. cbn [app tl] in Hr. rewrite Hr. reflexivity. }
  destruct B as (names & n & Hnames & R).
  exists (between u 0 ++ write_physical_names (f2_names f) ++ between u 1 ++ tail), names. split; [|split; [exact Hnames|]].
  { unfold mixed22. fold links D. fold tail. unfold read_header. cbn [app length skip_comments line1 hd]. change (String.eqb (strip "$MeshFormat") "$Comments") with false.
    cbn iota. cbn [line1 hd tl]. change (String.eqb (strip "$MeshFormat") "$MeshFormat") with true. cbn iota.
    change (split_ws "2.2 0 8") with ["2.2"; "0"; "8"]%string. cbn [negb smem existsb String.eqb orb].
    change (negb (smem "0" ["0"; "1"]%string)) with false. cbn iota.
    change (parse_Z "8") with (Some 8%Z). cbn [of_option bind]. rewrite skip_to_here by reflexivity. reflexivity. }
  unfold read22. rewrite (runs_read22 _ _ _ _ R). cbn [bind].
  exact (file22_finish f names W).
Qed.
End Mixed.
