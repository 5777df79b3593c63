(** UGRID: the theorems in the vocabulary of the specification. *)
From Verif.Lib Require Import Base Facts Facts2 Text Lines LinesFacts Bytes BytesFacts File.
From Verif.Model Require Import Core Ugrid.
From Verif.Spec Require Import Core Volume.
From Verif.Proofs Require Import Core Ply Ugrid.
From Coq Require Import NArith ZifyBool ZifyNat ZifyN.

Section UgridSpec.
Context {F : Type}.
Implicit Type m : ugrid_mesh F.
Definition mesh_ok m : Prop :=
  Forall (fun p => length p = 3) (ug_points m) /\
  Forall (fun b => btype b <> "points") (ug_cells m) /\
  Forall (fun t => length (filter (fun b => String.eqb (btype b) (fst t)) (ug_cells m)) <= 1 /\
                   Forall (fun c => length c = snd t /\ Forall (fun i => 0 <= i < Z.of_nat (length (ug_points m)))%Z c)
                     (cells_of (fst t) (ug_cells m)))
    (ugrid_surface ++ ugrid_volume).
Definition plain m : Prop :=
  Forall (fun k => snd k = false) (ug_kinds m) \/
  (cells_of "triangle" (ug_cells m) = [] /\ cells_of "quad" (ug_cells m) = []).
Definition result_of m : list (list F) * list block * list (list Z) :=
  let R t := cells_of t (ug_cells m) in
  (ug_points m, blocks_for ugrid_surface R ++ blocks_for ugrid_volume R,
   labelled 1 (blocks_for ugrid_surface R) ++ labelled 0 (blocks_for ugrid_volume R)).

Lemma plain_exists m : plain m ->
  existsb snd (ug_kinds m) = false \/ (cells_of "triangle" (ug_cells m) = [] /\ cells_of "quad" (ug_cells m) = []).
Proof.
  intros [H|H]; [left|now right]. induction H as [|k ks Hk H IH]; [reflexivity|]. cbn. now rewrite Hk.
Qed.
Lemma fits_ok (gi : Z -> Prop) (gr : F -> Prop) m : mesh_ok m -> Forall (Forall gr) (ug_points m) ->
  (forall i, (0 <= i < Z.of_nat (length (ug_points m)))%Z -> gi (i + 1)%Z) ->
  gi (Z.of_nat (length (ug_points m))) ->
  Forall (fun t => gi (Z.of_nat (length (cells_of (fst t) (ug_cells m))))) (ugrid_surface ++ ugrid_volume) ->
  ugrid_fits gi gr m.
Proof.
  intros (H1 & _ & H2) Hr Hi Hn Hc. split; [|split; [exact Hn|]].
  - rewrite Forall_forall in *. auto.
  - apply Forall_forall. intros t Ht. rewrite Forall_forall in H2, Hc. destruct (H2 t Ht) as [_ Hrows]. split; [|now apply Hc].
    eapply Forall_impl; [|exact Hrows]. cbn. intros c [L Hv]. split; [exact L|]. eapply Forall_impl; [|exact Hv]. exact Hi.
Qed.
Lemma mesh_ok_once m : mesh_ok m -> forall t, In t ugrid_types -> length (blocks_of_type (fst t) (ug_cells m)) <= 1.
Proof. intros (_ & _ & H) t Ht. rewrite Forall_forall in H. apply (H t Ht). Qed.

Lemma small_range w z : 0 < w -> (0 <= z < 2 ^ (8 * Z.of_nat w - 1))%Z -> sint_range w z.
Proof.
  intros Hw H. unfold sint_range. rewrite capacity_pow.
  replace (8 * Z.of_nat w)%Z with (1 + (8 * Z.of_nat w - 1))%Z by lia. rewrite Z.pow_add_r by lia. lia.
Qed.

Theorem ugrid_binary_ok (fortran big : bool) (w fw : nat) (fc : codec F) mem m :
  0 < w -> 0 < fw -> codec_width fc fw -> Forall (Forall (exact fc)) (ug_points m) ->
  mesh_ok m -> plain m ->
  (Z.of_nat (length (ug_points m)) < 2 ^ (8 * Z.of_nat w - 1))%Z ->
  Forall (fun t => Z.of_nat (length (cells_of (fst t) (ug_cells m))) < 2 ^ (8 * Z.of_nat w - 1))%Z (ugrid_surface ++ ugrid_volume) ->
  exists b, write_ugrid_binary fortran mem big w fc m = Ok b /\
            read_ugrid_binary fortran big w fw fc b = Ok (result_of m).
Proof.
  intros Hw Hfw Hc He Hm Hp Hn Hcs. apply ugrid_binary; auto.
  - apply fits_ok; auto.
    + intros i Hi. apply small_range; lia.
    + apply small_range; lia.
    + eapply Forall_impl; [|exact Hcs]. cbv beta. intros t Ht. apply small_range; lia.
  - apply small_range; [exact Hw|]. split; [lia|]. apply Z.pow_gt_1; lia.
  - apply Hm.
  - now apply mesh_ok_once.
  - now apply plain_exists.
Qed.

Lemma cells_of_blocks_for (types : list (string * nat)) R t : NoDup (map fst types) ->
  cells_of t (blocks_for types R) = if smem t (map fst types) then R t else [].
Proof.
  induction types as [|[u w] types IH]; intros N; [reflexivity|]. cbn [map fst] in N. inversion N as [|? ? Hn N']; subst.
  cbn [blocks_for flat_map map fst smem]. fold (blocks_for types R).
  assert (E : cells_of t (match R u with [] => [] | rows => [Block u rows] end ++ blocks_for types R) =
              (if String.eqb u t then R u else []) ++ cells_of t (blocks_for types R)).
  { destruct (R u) as [|r rows]; [now destruct (String.eqb u t)|]. cbn [app]. rewrite cells_of_cons. reflexivity. }
  cbn [fst] in E. rewrite E, IH by auto. unfold smem. cbn [existsb]. rewrite (String.eqb_sym t u). destruct (String.eqb_spec u t) as [<-|Hne]; [|reflexivity].
  cbn [orb]. replace (existsb (String.eqb u) (map fst types)) with false; [apply app_nil_r|].
  symmetry. destruct (existsb (String.eqb u) (map fst types)) eqn:Ex; [|reflexivity]. exfalso. apply Hn.
  apply existsb_exists in Ex. destruct Ex as (x & Hx & Hxe). apply String.eqb_eq in Hxe. now subst.
Qed.
Theorem ugrid_result_cells m t :
  In t ["triangle"; "quad"; "tetra"; "pyramid"; "wedge"; "hexahedron"] ->
  cells_of t (snd (fst (result_of m))) = cells_of t (ug_cells m).
Proof.
  intros Ht. unfold result_of. cbn [fst snd]. 
  replace (blocks_for ugrid_surface (fun t0 => cells_of t0 (ug_cells m)) ++ blocks_for ugrid_volume (fun t0 => cells_of t0 (ug_cells m)))
    with (blocks_for (ugrid_surface ++ ugrid_volume) (fun t0 => cells_of t0 (ug_cells m))) by (unfold blocks_for; apply flat_map_app).
  rewrite cells_of_blocks_for.
  - replace (smem t _) with true; [reflexivity|]. symmetry. apply existsb_exists. exists t. split; [exact Ht|apply String.eqb_refl].
  - cbn. repeat constructor; cbn; intuition discriminate.
Qed.

Theorem ugrid_repeated fortran mem m bs1 b1 bs2 b2 bs3 :
  ug_cells m = bs1 ++ b1 :: bs2 ++ b2 :: bs3 ->
  In (btype b1) ["triangle"; "quad"; "tetra"; "pyramid"; "wedge"; "hexahedron"] ->
  btype b2 = btype b1 -> bdata b1 <> [] -> write_ugrid fortran mem m = Err ValueError.
Proof.
  intros E Hin E2 Hne. unfold write_ugrid. rewrite E.
  (* the first later block of this type *)
  assert (X : exists cs2 c cs3, bs2 ++ b2 :: bs3 = cs2 ++ c :: cs3 /\ btype c = btype b1 /\ Forall (fun b => btype b <> btype b1) cs2).
  { clear - E2. induction bs2 as [|b bs2 IH].
    - exists [], b2, bs3. cbn. repeat split; auto.
    - destruct (String.eqb_spec (btype b) (btype b1)) as [Eb|Nb].
      + exists [], b, (bs2 ++ b2 :: bs3). cbn. repeat split; auto.
      + destruct IH as (cs2 & c & cs3 & Ec & Hc & Hf). exists (b :: cs2), c, cs3. cbn [app]. rewrite Ec. repeat split; auto. }
  destruct X as (cs2 & c & cs3 & -> & Hc & Hf).
  rewrite (collect_repeated bs1 cs2 cs3 b1 c); auto.
  intros Ep. rewrite Ep in Hin. cbn in Hin. intuition discriminate.
Qed.
End UgridSpec.

Theorem ugrid_ascii_ok (fl : floats) (m : ugrid_mesh fl) :
  Forall (Forall (fun v => word (ffmt v) = true /\ fparse (ffmt v) = Some v)) (ug_points m) ->
  mesh_ok m -> plain m ->
  exists ls, write_ugrid_ascii m = Ok ls /\ read_ugrid_ascii ls = Ok (result_of m).
Proof.
  intros He Hm Hp. apply ugrid_ascii.
  - apply fits_ok; auto. apply Forall_forall. auto.
  - apply Hm.
  - now apply mesh_ok_once.
  - now apply plain_exists.
Qed.
