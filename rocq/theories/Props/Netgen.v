(** C50: Netgen. *)
From Coq Require Import List String ZArith Lia.
From Verif.Lib Require Import Base Facts Text TextFacts Lines LinesFacts.
From Verif.Model Require Import Core Avsucd Netgen.
From Verif.Spec Require Import Core Blocks Netgen.
From Verif.Proofs Require Import Gmsh Gmsh22 Blocks Flac3d Avsucd Netgen NetgenFile.
From Verif.Spec Require Flac3d.
Import Model.Netgen.

(** The two tables of node orders are inverse to each other: for every type, reordering a row of nodes by one and then by the
    other gives the row back, and neither fails. *)
Theorem C50_permutation t p : In (t, p) netgen_to_meshio_pmap -> exists q, dget t meshio_to_netgen_pmap = Some q /\ length q = length p /\
  forall row : list Z, length row = length p ->
    (exists r, permute q row = Some r /\ permute p r = Some row) /\ (exists r, permute p row = Some r /\ permute q r = Some row).
Proof.
  assert (G : forall n a b, Forall (fun i => i < n) a -> Forall (fun i => i < n) b -> length a = n -> map (fun i => nth i a 0) b = seq 0 n ->
    forall row : list Z, length row = n -> exists r, permute a row = Some r /\ permute b r = Some row).
  { intros n a b Ha Hb La M row Lr. exists (Flac3d.select a row). split; [apply permute_select; now rewrite Lr|]. rewrite permute_select.
    - rewrite select_select by (now rewrite La). now rewrite M, <- Lr, select_all.
    - unfold Flac3d.select. now rewrite map_length, La. }
  intros H. cbn in H.
  repeat (destruct H as [H|H]; [injection H as <- <-; eexists; split; [vm_compute; reflexivity|]; split; [vm_compute; reflexivity|]; intros row L; cbn [length] in L; split;
    (eapply G; [| | | |exact L]; vm_compute; try reflexivity; repeat constructor; lia)|]); destruct H.
Qed.
Print Assumptions C50_permutation.
Example C50_permutation_example : permute (match dget "pyramid13" meshio_to_netgen_pmap with Some q => q | None => [] end) [0; 1; 2; 3; 4; 5; 6; 7; 8; 9; 10; 11; 12]%Z
  = Some [0; 3; 2; 1; 4; 8; 6; 5; 7; 9; 12; 11; 10]%Z.
Proof. now vm_compute. Qed.

(** The round trip, for meshes with at least two points: the same points; surfaces first, then volumes, edges and points, each in the
    order of the mesh, with the same nodes in the same order; the index of every cell; the names of the regions; and the
    identifications.  (Missing for the full claim: meshes with a single point, see C50_one_point_refuted.) *)
Theorem C50_roundtrip_partial {fl : floats} (v : string) (m : ng_mesh fl) d : netgen_floats fl -> netgen_good m d -> 2 <= length (ng_points m) ->
  let cs := by_dimension (indexed m) in
  let bs := regroup (all_cells (map fst cs)) in
  exists file, write_netgen v m = Ok file /\
    read_netgen (fl := fl) file = Ok (NgOut (Rows (ng_points m)) bs (data_for bs (concat (map snd cs))) (field_back m d) (info_back (ng_info m))).
Proof.
  intros Hf Hg H2 cs bs. destruct (netgen_ok Hf v m d Hg) as (file & E & R). exists file. split; [exact E|]. rewrite R.
  destruct (Nat.eqb_spec (length (ng_points m)) 1); [lia|]. cbn [andb]. destruct (ng_points m) as [|p [|q pts]]; cbn [length] in H2; [lia|lia|reflexivity].
Qed.
Print Assumptions C50_roundtrip_partial.

(** In particular, for every type the cells of that type come back in the same order, each with its own index. *)
Theorem C50_cells {fl : floats} (v : string) (m : ng_mesh fl) d : netgen_floats fl -> netgen_good m d -> 2 <= length (ng_points m) ->
  exists file o, write_netgen v m = Ok file /\ read_netgen (fl := fl) file = Ok o /\
    forall t, filter (fun x => String.eqb (fst (fst x)) t) (combine (all_cells (no_cells o)) (concat (no_index o)))
            = filter (fun x => String.eqb (fst (fst x)) t) (combine (all_cells (ng_cells m)) (concat (map snd (indexed m)))).
Proof.
  intros Hf Hg H2. destruct (C50_roundtrip_partial v m d Hf Hg H2) as (file & E & R). exists file. eexists. split; [exact E|]. split; [exact R|]. cbn [no_cells no_index]. intros t.
  destruct (indexed_facts m d Hg) as (Gp & Ec & _). rewrite <- Ec.
  assert (A : forall l, Forall good_pair l -> length (concat (map snd l)) = length (all_cells (map fst l)) /\
    combine (all_cells (map fst l)) (concat (map snd l)) = flat_map (fun bx => combine (map (pair (btype (fst bx))) (bdata (fst bx))) (snd bx)) l).
  { induction 1 as [|[b x] l (_ & L & _) _ (IH1 & IH2)]; [split; reflexivity|]. cbn [map fst snd concat flat_map] in *. rewrite all_cells_cons, !app_length, map_length. unfold blen in L. split; [lia|].
    rewrite <- IH2. clear - L. revert x L. induction (bdata b) as [|c cs IH]; intros [|i x] L; cbn in L; try discriminate; [reflexivity|]. cbn [map combine app]. f_equal. apply IH. lia. }
  rewrite regroup_cells, data_for_concat by (rewrite regroup_cells; apply A, by_dim_good, Gp).
  rewrite (proj2 (A _ (by_dim_good _ Gp))), (proj2 (A _ Gp)).
  set (P := fun bx : block * list Z => combine (map (pair (btype (fst bx))) (bdata (fst bx))) (snd bx)). set (Q := fun x : string * cell * Z => String.eqb (fst (fst x)) t).
  assert (K : forall bx, filter Q (P bx) = if String.eqb (btype (fst bx)) t then P bx else []).
  { intros [b x]. unfold P. cbn [fst snd]. generalize (bdata b) as cs. intros cs. revert x. induction cs as [|c cs IH]; intros [|i x]; try (cbn; destruct (String.eqb (btype b) t); reflexivity).
    cbn [map combine filter]. rewrite IH. unfold Q at 1. cbn [fst]. destruct (String.eqb (btype b) t); reflexivity. }
  assert (FM : forall l, filter Q (flat_map P l) = flat_map P (filter (fun bx => String.eqb (btype (fst bx)) t) l)).
  { induction l as [|bx l IH]; [reflexivity|]. cbn [flat_map filter]. rewrite filter_app, K, IH. destruct (String.eqb (btype (fst bx)) t); reflexivity. }
  rewrite !FM. f_equal. unfold by_dimension. rewrite !filter_app.
  assert (D : forall k l, filter (fun bx : block * list Z => String.eqb (btype (fst bx)) t) (with_dim k l) = if Nat.eqb (netgen_dim t) k then filter (fun bx => String.eqb (btype (fst bx)) t) l else []).
  { intros k. induction l as [|bx l IH]; [now destruct (Nat.eqb (netgen_dim t) k)|]. unfold with_dim. cbn [filter]. fold (with_dim k l). destruct (String.eqb_spec (btype (fst bx)) t) as [Et|Nt].
    - rewrite Et. destruct (Nat.eqb (netgen_dim t) k); [|exact IH]. cbn [filter]. rewrite IH. rewrite Et, String.eqb_refl. reflexivity.
    - destruct (Nat.eqb (netgen_dim (btype (fst bx))) k); [|exact IH]. cbn [filter]. destruct (String.eqb_spec (btype (fst bx)) t); [congruence|exact IH]. }
  rewrite !D. destruct (in_dec string_dec t (map fst netgen_types)) as [Hin|Hout].
  - cbn in Hin. repeat (destruct Hin as [<-|Hin]; [cbn [netgen_dim dget netgen_types String.eqb Ascii.eqb Bool.eqb Nat.eqb app]; now rewrite ?app_nil_r|]). destruct Hin.
  - assert (N : filter (fun bx : block * list Z => String.eqb (btype (fst bx)) t) (indexed m) = []).
    { clear - Gp Hout. induction Gp as [|bx l ((d & w & Ht & _) & _) _ IH]; [reflexivity|]. cbn [filter]. destruct (String.eqb_spec (btype (fst bx)) t) as [<-|]; [|exact IH]. exfalso. apply Hout. apply (in_map fst) in Ht. exact Ht. }
    rewrite N. repeat match goal with |- context [Nat.eqb ?a ?b] => destruct (Nat.eqb a b) end; reflexivity.
Qed.
Print Assumptions C50_cells.

(** A mesh with a single point: in one or two dimensions the file that was written cannot be read, and in three dimensions the points
    come back as one row, not as an array of points. *)
Theorem C50_one_point_refuted {fl : floats} (v : string) (m : ng_mesh fl) d p : netgen_floats fl -> netgen_good m d -> ng_points m = [p] ->
  exists file, write_netgen v m = Ok file /\
    (d < 3 -> read_netgen (fl := fl) file = Err IndexError) /\
    (d = 3 -> exists o, read_netgen (fl := fl) file = Ok o /\ no_points o = Flat p).
Proof.
  intros Hf Hg H1. destruct (netgen_ok Hf v m d Hg) as (file & E & R). exists file. split; [exact E|]. rewrite R, H1. split.
  - intros Hd. destruct (Nat.eqb_spec d 3); [lia|]. reflexivity.
  - intros ->. eexists. split; reflexivity.
Qed.
Print Assumptions C50_one_point_refuted.

(** Integers in place of real numbers: all assumptions can be met. *)
Lemma int_netgen : netgen_floats int_floats.
Proof. split; [exact int_floats_ok|]. intros x. apply char_in_str_of_Z; [reflexivity|discriminate]. Qed.
Definition netgen_example : ng_mesh int_floats :=
  NgMesh (F := int_floats) [[0; 0; 0]; [1; 0; 0]; [0; 1; 0]; [0; 0; 1]; [1; 1; 1]]%Z
    [Block "tetra" [[0; 1; 2; 3]]%Z; Block "triangle" [[1; 2; 3]; [4; 3; 2]]%Z; Block "vertex" [[4]]%Z; Block "tetra" [[1; 2; 3; 4]]%Z]
    [("q"%string, CReals None [[[5]]; [[6]; [7]]; [[0]]; [[8]]]%Z); ("mat"%string, CInts [[3]; [4; 5]; [1]; [3]]%Z)]
    [("inner"%string, (3, 3)%Z); ("outer"%string, (1, 3)%Z)] (Some ([[1; 2; 1]]%Z, [2]%Z)).
Example C50_example : netgen_good netgen_example 3 /\
  match write_netgen (fl := int_floats) "5.3.5" netgen_example with
  | Ok f => read_netgen (fl := int_floats) f = Ok (NgOut (F := int_floats) (Rows (ng_points netgen_example))
      [Block "triangle" [[1; 2; 3]; [4; 3; 2]]%Z; Block "tetra" [[0; 1; 2; 3]; [1; 2; 3; 4]]%Z; Block "vertex" [[4]]%Z] [[4; 5]; [3; 3]; [1]]%Z
      [("outer"%string, (1, 3)%Z); ("inner"%string, (3, 3)%Z); ("cd1_4"%string, (4, 2)%Z); ("cd1_5"%string, (5, 2)%Z); ("cd3_1"%string, (1, 0)%Z)]
      (Some ([[1; 2; 1]]%Z, Some [2]%Z)))
  | Err _ => False
  end.
Proof.
  split; [|vm_compute; reflexivity]. unfold netgen_good, netgen_example. cbn [ng_points ng_cells ng_cdata ng_field ng_info].
  split; [lia|]. split; [discriminate|]. split; [repeat constructor|]. split.
  { apply Forall_cons; [exists 3, 4|apply Forall_cons; [exists 2, 3|apply Forall_cons; [exists 0, 1|apply Forall_cons; [exists 3, 4|constructor]]]]; (split; [cbn; tauto|cbn [bdata]; repeat (apply Forall_cons || apply Forall_nil || split); (reflexivity || lia)]). }
  split; [intros k s v [H|[H|[]]]; inversion H; subst; split; [reflexivity|discriminate]|].
  split; [intros k v [H|[H|[]]]; inversion H; subst; repeat (apply Forall2_cons || apply Forall2_nil || apply Forall_cons || apply Forall_nil || split); (reflexivity || lia)|].
  split; [discriminate|]. split; [repeat constructor|]. intros ids types [= <- <-]. repeat constructor.
Qed.
