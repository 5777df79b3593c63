From Coq Require Import Lia ZArith.
From Verif.Lib Require Import Base Facts Facts2 Text TextFacts Lines LinesFacts.
From Verif.Model Require Import Core Tables Abaqus Snoc Avsucd Netgen.
From Verif.Spec Require Import Core Blocks Mdpa Netgen.
From Verif.Spec Require Flac3d.
From Verif.Proofs Require Import Ply Gmsh Gmsh22 Mdpa Abaqus Blocks Snoc CoreMisc Flac3d Flac3dSets AbaqusFile Permas Avsucd AvsucdFile.
Import Model.Netgen.
Local Arguments str_of_nat : simpl never.
Local Arguments str_of_Z : simpl never.

(** ** Types and orders *)
Definition to_order (t : string) : list nat := match dget t meshio_to_netgen_pmap with Some o => o | None => [] end.
Definition ng_width (t : string) : nat := match dget t netgen_types with Some (_, w) => w | None => 0 end.
Lemma ng_facts t d w : In (t, (d, w)) netgen_types -> exists p,
  dget t meshio_to_netgen_pmap = Some (to_order t) /\ dget t netgen_to_meshio_pmap = Some p /\
  ng_width t = w /\ netgen_dim t = d /\ cellblock_dim t = Ok d /\ zget (Z.of_nat w) (ng_types d) = Some t /\ (d = 0 -> w = 1) /\ (d = 1 -> w = 2) /\ d <= 3 /\
  length (to_order t) = w /\ Forall (fun i => i < w) (to_order t) /\ Forall (fun i => i < w) p /\
  map (fun i => nth i (to_order t) 0) p = seq 0 w.
Proof.
  intros H. cbn in H. repeat (destruct H as [H|H]; [injection H as <- <- <-; eexists;
    do 6 (split; [vm_compute; reflexivity|]); do 2 (split; [try reflexivity; discriminate|]); split; [lia|]; split; [vm_compute; reflexivity|]; split; [vm_compute; repeat constructor; lia|]; split; [vm_compute; repeat constructor; lia|vm_compute; reflexivity]|]); destruct H.
Qed.
Lemma order_back t d w c p : In (t, (d, w)) netgen_types -> length c = w -> dget t netgen_to_meshio_pmap = Some p ->
  permute p (Flac3d.select (to_order t) c) = Some c.
Proof.
  intros H L Hp. destruct (ng_facts _ _ _ H) as (q & _ & E & _ & _ & _ & _ & _ & _ & _ & Lo & _ & Fp & M). assert (q = p) by congruence. subst q.
  rewrite permute_select.
  - rewrite select_select by (now rewrite Lo). rewrite M, <- L, select_all. reflexivity.
  - unfold Flac3d.select. rewrite map_length, Lo. exact Fp.
Qed.

(** ** Lines of cells *)
Lemma i32_id z : (-2147483648 <= z < 2147483648)%Z -> i32 z = z.
Proof. intros H. unfold i32. rewrite Z.mod_small; lia. Qed.
Lemma u32_id z : (0 <= z < 4294967296)%Z -> u32 z = z.
Proof. intros H. unfold u32. now rewrite Z.mod_small. Qed.

(** A line: the words of a row. *)
Definition ints_line (zs : list Z) : string := row_line (map str_of_Z zs).
Lemma ints_plain zs : zs <> [] -> strip (ints_line zs) = ints_line zs /\ ints_line zs <> ""%string /\ String.prefix "#" (ints_line zs) = false.
Proof.
  intros Hne. split; [apply strip_row, words_ints|]. split.
  - intros E. assert (B := blank_row (map str_of_Z zs) (words_ints zs) ltac:(now destruct zs)). unfold ints_line in E. rewrite E in B. discriminate.
  - assert (C : char_in "#" (ints_line zs) = false).
    { apply char_in_join; [discriminate|]. apply Forall_map, Forall_forall. intros x _. apply char_in_str_of_Z; [reflexivity|discriminate]. }
    destruct (ints_line zs) as [|a s]; [reflexivity|]. cbn [char_in] in C. apply orb_false_iff in C. destruct C as [C _]. cbn [String.prefix]. destruct (ascii_dec "#" a) as [<-|]; [discriminate|reflexivity].
Qed.
Lemma next_ints zs rest : zs <> [] -> ng_next (ints_line zs :: rest) = Some (ints_line zs, rest).
Proof.
  intros H. destruct (ints_plain zs H) as (E1 & E2 & E3). cbn [ng_next]. rewrite E1, E3. destruct (String.eqb_spec (ints_line zs) ""); [contradiction|]. reflexivity.
Qed.
Lemma split_ints zs : zs <> [] -> filter (fun w => negb (String.eqb w "")) (split_char " " (ints_line zs)) = map str_of_Z zs.
Proof.
  intros H. unfold ints_line, row_line. change " "%string with (String " " ""). rewrite split_join_char.
  - induction zs as [|z zs IH]; [congruence|]. cbn [map filter]. destruct (String.eqb_spec (str_of_Z z) "") as [E|_].
    + assert (W := word_str_of_Z z). rewrite E in W. discriminate.
    + cbn [negb]. f_equal. destruct zs; [reflexivity|]. apply IH. discriminate.
  - now destruct zs.
  - clear. induction zs as [|z zs IH]; [reflexivity|]. cbn [map forallb]. rewrite IH, char_in_str_of_Z; [reflexivity|reflexivity|discriminate].
Qed.
Lemma int_lines zs : mapM int_line (map str_of_Z zs) = Ok zs.
Proof. induction zs as [|z zs IH]; [reflexivity|]. cbn [map mapM]. rewrite int_line_str. cbn [bind]. now rewrite IH. Qed.

(** The row of a cell with nodes [r] (counted from one) and index [i]. *)
Definition cell_row (dim n : nat) (r : list Z) (i : Z) : list Z :=
  let '(pre, post, at_) := ng_layout dim n in upd at_ i (pre ++ r ++ post).
Definition default_row (dim n : nat) (r : list Z) : list Z := let '(pre, post, at_) := ng_layout dim n in pre ++ r ++ post.
Lemma default_index dim n r : dim <= 3 -> (dim = 0 -> length r = 1) -> default_row dim n r = cell_row dim n r 1.
Proof.
  intros Hd H0. unfold default_row, cell_row. destruct dim as [|[|[|[|dim]]]]; try lia; try reflexivity.
  destruct r as [|x [|y r]]; cbn in H0; try (specialize (H0 eq_refl); lia). reflexivity.
Qed.
Definition kind_of (dim : nat) : nat * nat := match dim with 0 => (0, 1) | 1 => (2, 0) | 2 => (5, 1) | _ => (2, 0) end.
Lemma slice_front {A} (a b l : list A) k n : k = length a -> n = k + length b -> slice k n (a ++ b ++ l) = b.
Proof.
  intros -> ->. unfold slice. rewrite skipn_app, skipn_all, Nat.sub_diag. cbn [app skipn]. replace (length a + length b - length a) with (length b) by lia.
  rewrite firstn_app, firstn_all, Nat.sub_diag. cbn [firstn]. apply app_nil_r.
Qed.
Lemma read_cell_row t d w r i : In (t, (d, w)) netgen_types -> length r = w ->
  read_ng_cell d (fst (kind_of d)) (snd (kind_of d)) (ints_line (cell_row d w r i)) = Ok (t, r, i).
Proof.
  intros Ht Hr. destruct (ng_facts _ _ _ Ht) as (_ & _ & _ & _ & _ & _ & Et & H0 & H1 & H3 & _).
  assert (Hne : cell_row d w r i <> []).
  { unfold cell_row. destruct d as [|[|[|[|d]]]]; try lia; cbn; try discriminate. destruct r as [|x [|y r]]; cbn in *; [specialize (H0 eq_refl); lia|discriminate|discriminate]. }
  unfold read_ng_cell. rewrite split_ints by exact Hne.
  assert (Hw : length (map str_of_Z r) = w) by now rewrite map_length.
  destruct d as [|[|[|[|d]]]]; try lia; cbn [kind_of fst snd].
  - destruct r as [|x [|y r]]; cbn in Hr; try (specialize (H0 eq_refl); lia). subst w. unfold cell_row. cbn [ng_layout app upd length map nth_error of_option bind].
    rewrite int_line_str. cbn [bind]. change (slice 0 (0 + Z.to_nat 1) [str_of_Z x; str_of_Z i]) with (map str_of_Z [x]). rewrite int_lines. cbn [bind]. cbn in Et |- *. injection Et as ->. reflexivity.
  - rewrite (H1 eq_refl) in *. unfold cell_row. cbn [ng_layout app upd map nth_error of_option bind]. rewrite int_line_str. cbn [bind]. rewrite map_app.
    change (str_of_Z i :: str_of_Z 0 :: map str_of_Z r ++ ?l) with ([str_of_Z i; str_of_Z 0] ++ map str_of_Z r ++ l). rewrite slice_front by (cbn [length]; rewrite ?Hw; reflexivity).
    rewrite int_lines. cbn [bind]. change 2%Z with (Z.of_nat 2). rewrite Et. reflexivity.
  - unfold cell_row. cbn [ng_layout app upd map nth_error of_option bind]. rewrite !int_line_str. cbn [bind]. rewrite app_nil_r, Nat2Z.id.
    rewrite <- (app_nil_r (map str_of_Z r)).
    change (str_of_Z 1 :: str_of_Z i :: str_of_Z 0 :: str_of_Z 0 :: str_of_Z (Z.of_nat w) :: map str_of_Z r ++ []) with ([str_of_Z 1; str_of_Z i; str_of_Z 0; str_of_Z 0; str_of_Z (Z.of_nat w)] ++ map str_of_Z r ++ []).
    rewrite slice_front by (cbn [length]; rewrite ?Hw; reflexivity). rewrite int_lines. cbn [bind]. rewrite Et. reflexivity.
  - unfold cell_row. cbn [ng_layout app upd map nth_error of_option bind]. rewrite !int_line_str. cbn [bind]. rewrite app_nil_r, Nat2Z.id.
    rewrite <- (app_nil_r (map str_of_Z r)).
    change (str_of_Z i :: str_of_Z (Z.of_nat w) :: map str_of_Z r ++ []) with ([str_of_Z i; str_of_Z (Z.of_nat w)] ++ map str_of_Z r ++ []).
    rewrite slice_front by (cbn [length]; rewrite ?Hw; reflexivity). rewrite int_lines. cbn [bind]. rewrite Et. reflexivity.
Qed.

(** ** A section *)
(** What is collected for one cell, and its line. *)
Definition in_file (t : string) (c : cell) : cell := map (fun i => (i + 1)%Z) (Flac3d.select (to_order t) c).
Definition tci (bx : block * list Z) : list (string * cell * Z) := map (fun ci => (btype (fst bx), in_file (btype (fst bx)) (fst ci), snd ci)) (combine (bdata (fst bx)) (snd bx)).
Definition cell_line_of (x : string * cell * Z) : string :=
  let t := fst (fst x) in ints_line (cell_row (netgen_dim t) (ng_width t) (snd (fst x)) (snd x)).
Definition ok_cell (x : string * cell * Z) : Prop :=
  exists d w, In (fst (fst x), (d, w)) netgen_types /\ length (snd (fst x)) = w.

Lemma read_cells_ok dim xs rest : Forall (fun x => ok_cell x /\ netgen_dim (fst (fst x)) = dim) xs ->
  read_ng_cells dim (fst (kind_of dim)) (snd (kind_of dim)) false (length xs) (map cell_line_of xs ++ rest) = Ok (xs, rest).
Proof.
  induction 1 as [|[[t c] i] xs ((d & w & Ht & Hw) & Hd) _ IH]; [reflexivity|]. cbn [fst snd] in *. cbn [length map app read_ng_cells].
  destruct (ng_facts _ _ _ Ht) as (_ & _ & _ & Ew & Ed & _ & _ & H0 & H1 & H3 & _).
  assert (d = dim) as -> by congruence. assert (El : cell_line_of (t, c, i) = ints_line (cell_row dim w c i)) by (unfold cell_line_of; cbn [fst snd]; now rewrite Ew, Ed). rewrite El.
  assert (Hne : cell_row dim w c i <> []).
  { unfold cell_row. destruct dim as [|[|[|[|dim]]]]; try lia; cbn; try discriminate. destruct c as [|x [|y c]]; cbn in *; [specialize (H0 eq_refl); lia|discriminate|discriminate]. }
  rewrite next_ints by exact Hne. cbn [fst snd]. rewrite (read_cell_row t) by auto. cbn [bind]. rewrite IH. reflexivity.
Qed.

Definition good_pair (bx : block * list Z) : Prop :=
  netgen_block (fst bx) /\ length (snd bx) = blen (fst bx) /\ Forall (fun i => (-2147483648 <= i < 2147483648)%Z) (snd bx).
Lemma in_file_i32 t d w c : In (t, (d, w)) netgen_types -> length c = w -> Forall (fun i => (0 <= i < 2147483647)%Z) c ->
  permute (to_order t) c = Some (Flac3d.select (to_order t) c) /\ map (fun i => i32 (i + 1)) (Flac3d.select (to_order t) c) = in_file t c.
Proof.
  intros Ht Hw Hc. destruct (ng_facts _ _ _ Ht) as (p & _ & _ & _ & _ & _ & _ & _ & _ & _ & Lo & Fo & _). split.
  - apply permute_select. now rewrite Hw.
  - unfold in_file. apply map_ext_in. intros i Hi. apply i32_id. unfold Flac3d.select in Hi. apply in_map_iff in Hi. destruct Hi as (k & <- & Hk).
    pose proof (proj1 (Forall_forall _ _) Fo k Hk) as Hlt. pose proof (proj1 (Forall_forall _ _) Hc (nth k c 0%Z) (nth_In c 0%Z ltac:(rewrite Hw; exact Hlt))) as Hb. cbv beta in Hb. lia.
Qed.
Lemma write_cells_ok b x dim : good_pair (b, x) -> netgen_dim (btype b) = dim ->
  ng_write_cells dim b (Some x) = Ok (map cell_line_of (tci (b, x))).
Proof.
  intros ((d & w & Ht & Hr) & Hl & Hx) Hd. cbn [fst snd] in *. destruct (ng_facts _ _ _ Ht) as (p & E1 & _ & Ew & Ed & _ & _ & H0 & H1 & H3 & Lo & Fo & _).
  assert (d = dim) as -> by congruence. unfold ng_write_cells. destruct (bdata b) as [|c0 cs0] eqn:Eb; [unfold tci; cbn [fst]; now rewrite Eb|]. rewrite <- Eb in *. clear c0 cs0 Eb.
  rewrite E1. cbn [of_option bind]. rewrite Lo. destruct (ng_layout dim w) as [[pre post] at_] eqn:El.
  rewrite (mapM_ok_in _ (fun c => pre ++ in_file (btype b) c ++ post)).
  2:{ intros c Hc. pose proof (proj1 (Forall_forall _ _) Hr c Hc) as [L1 L2]. destruct (in_file_i32 _ _ _ _ Ht L1 L2) as [X1 X2]. rewrite X1. cbn [of_option bind]. now rewrite X2. }
  cbn [bind]. rewrite map_length. unfold blen in Hl. rewrite Hl, Nat.eqb_refl. cbn [bind]. f_equal. unfold tci. cbn [fst snd]. rewrite !map_map.
  unfold cell_line_of. cbn [fst snd]. rewrite Ew, Ed. clear Hr. revert x Hl Hx. induction (bdata b) as [|c cs IH]; intros [|i x] Hl Hx; cbn in Hl; try discriminate; [reflexivity|].
  cbn [map combine]. inversion Hx; subst. cbn [fst snd]. f_equal; [|apply IH; auto]. unfold ints_line, cell_row. rewrite El. rewrite i32_id by auto. reflexivity.
Qed.
Lemma write_cells_default b dim : netgen_block b -> netgen_dim (btype b) = dim ->
  ng_write_cells dim b None = Ok (map cell_line_of (tci (b, map (fun _ => 1%Z) (bdata b)))).
Proof.
  intros (d & w & Ht & Hr) Hd. destruct (ng_facts _ _ _ Ht) as (p & E1 & _ & Ew & Ed & _ & _ & H0 & H1 & H3 & Lo & Fo & _).
  assert (d = dim) as -> by congruence. unfold ng_write_cells. destruct (bdata b) as [|c0 cs0] eqn:Eb; [unfold tci; cbn [fst]; now rewrite Eb|]. rewrite <- Eb in *. clear c0 cs0 Eb.
  rewrite E1. cbn [of_option bind]. rewrite Lo. destruct (ng_layout dim w) as [[pre post] at_] eqn:El.
  rewrite (mapM_ok_in _ (fun c => pre ++ in_file (btype b) c ++ post)).
  2:{ intros c Hc. pose proof (proj1 (Forall_forall _ _) Hr c Hc) as [L1 L2]. destruct (in_file_i32 _ _ _ _ Ht L1 L2) as [X1 X2]. rewrite X1. cbn [of_option bind]. now rewrite X2. }
  cbn [bind]. f_equal. unfold tci. cbn [fst snd]. rewrite !map_map.
  unfold cell_line_of. cbn [fst snd]. rewrite Ew, Ed. induction Hr as [|c cs [L _] Hr IH]; [reflexivity|].
  cbn [map combine]. cbn [fst snd]. f_equal; [|apply IH]. assert (Ein : length (in_file (btype b) c) = w) by (unfold in_file, Flac3d.select; now rewrite !map_length).
  unfold ints_line. rewrite <- default_index; [|exact H3|intros ->; rewrite Ein; auto]. unfold default_row. rewrite El. reflexivity.
Qed.
Lemma tci_ok bx : netgen_block (fst bx) -> Forall (fun x => ok_cell x /\ fst (fst x) = btype (fst bx)) (tci bx).
Proof.
  intros (d & w & Ht & Hr). unfold tci. apply Forall_map, Forall_forall. intros [c i] Hin. apply in_combine_l in Hin. cbn [fst snd]. split; [|reflexivity].
  exists d, w. split; [exact Ht|]. cbn [fst snd]. destruct (ng_facts _ _ _ Ht) as (p & _ & _ & _ & _ & _ & _ & _ & _ & _ & Lo & _). unfold in_file, Flac3d.select. now rewrite !map_length.
Qed.

(** The pairs of blocks and indices as the writer sees them. *)
Definition as_index (bx : block * list Z) (o : option (list Z)) : Prop := o = Some (snd bx) \/ (o = None /\ snd bx = map (fun _ => 1%Z) (bdata (fst bx))).
Lemma block_dim b : netgen_block b -> cellblock_dim (btype b) = Ok (netgen_dim (btype b)).
Proof. intros (d & w & Ht & _). destruct (ng_facts _ _ _ Ht) as (p & _ & _ & _ & Ed & Ec & _). congruence. Qed.
Lemma section_lines dim l os : Forall good_pair l -> Forall2 as_index l os ->
  ng_section dim (combine (map fst l) os) = Ok (map cell_line_of (flat_map tci (with_dim dim l))).
Proof.
  intros Hg Ho. unfold ng_section. enough (E : exists r, mapM (fun bi => do d <- cellblock_dim (btype (fst bi)); if Nat.eqb d dim then ng_write_cells dim (fst bi) (snd bi) else Ok []) (combine (map fst l) os) = Ok r /\ concat r = map cell_line_of (flat_map tci (with_dim dim l))).
  { destruct E as (r & -> & <-). reflexivity. }
  induction Ho as [|[b x] o l os Hbo Ho IH]; [now exists []|]. inversion Hg as [|? ? Hb Hg']; subst. destruct (IH Hg') as (r & E & Er). cbn [map combine mapM fst snd].
  rewrite block_dim by apply Hb. cbn [bind]. unfold with_dim. cbn [filter fst]. fold (with_dim dim l). destruct (Nat.eqb_spec (netgen_dim (btype b)) dim) as [Ed|Ed].
  - assert (Ew : ng_write_cells dim b o = Ok (map cell_line_of (tci (b, x)))).
    { destruct Hbo as [->|[-> Ex]]; cbn [fst snd] in *; [now apply write_cells_ok|]. rewrite Ex. apply write_cells_default; auto. apply Hb. }
    rewrite Ew. cbn [bind]. rewrite E. cbn [bind]. eexists. split; [reflexivity|]. cbn [concat flat_map]. rewrite map_app, Er. reflexivity.
  - cbn [bind]. rewrite E. cbn [bind]. eexists. split; [reflexivity|]. exact Er.
Qed.
Lemma tci_length bx : good_pair bx -> length (tci bx) = blen (fst bx).
Proof. intros (_ & H & _). unfold tci. rewrite map_length, combine_length, H. apply Nat.min_id. Qed.
Lemma section_count dim l : Forall good_pair l -> ng_count dim (map fst l) = Ok (length (flat_map tci (with_dim dim l))).
Proof.
  intros Hg. unfold ng_count. enough (E : exists r, mapM (fun b => do d <- cellblock_dim (btype b); Ok (if Nat.eqb d dim then blen b else 0)) (map fst l) = Ok r /\ sum_nat r = length (flat_map tci (with_dim dim l))).
  { destruct E as (r & -> & <-). reflexivity. }
  induction Hg as [|[b x] l Hb Hg IH]; [now exists []|]. destruct IH as (r & E & Er). cbn [map mapM fst]. rewrite block_dim by apply Hb. cbn [bind]. rewrite E. cbn [bind]. eexists. split; [reflexivity|].
  unfold with_dim. cbn [filter fst]. fold (with_dim dim l). cbn [sum_nat]. rewrite Er. destruct (Nat.eqb (netgen_dim (btype b)) dim); [|reflexivity]. cbn [flat_map]. rewrite app_length, tci_length by auto. reflexivity.
Qed.
Lemma section_cells dim l : Forall good_pair l -> Forall (fun x => ok_cell x /\ netgen_dim (fst (fst x)) = dim) (flat_map tci (with_dim dim l)).
Proof.
  intros Hg. apply Forall_flat_map. unfold with_dim. apply Forall_forall. intros bx Hin. apply filter_In in Hin. destruct Hin as [Hin Hd]. apply Nat.eqb_eq in Hd.
  pose proof (proj1 (Forall_forall _ _) Hg bx Hin) as Hb. eapply Forall_impl; [|apply tci_ok; apply Hb]. intros x [H1 H2]. split; [exact H1|congruence].
Qed.

(** ** From the cells collected to blocks *)
Lemma tci_types l : Forall good_pair l -> map (fun x => (fst (fst x), snd (fst x))) (flat_map tci l) = map (fun tc => (fst tc, in_file (fst tc) (snd tc))) (all_cells (map fst l)).
Proof.
  intros H. induction H as [|[b x] l (_ & Hl & _) H IH]; [reflexivity|]. cbn [flat_map map fst]. rewrite all_cells_cons, !map_app, IH. f_equal. unfold tci. cbn [fst snd] in *. rewrite !map_map. cbn [fst snd].
  unfold blen in Hl. rewrite <- (map_map fst (fun c => (btype b, in_file (btype b) c))). now rewrite map_fst_combine by now rewrite Hl.
Qed.
Lemma tci_index l : Forall good_pair l -> map snd (flat_map tci l) = concat (map snd l).
Proof.
  intros H. induction H as [|[b x] l (_ & Hl & _) H IH]; [reflexivity|]. cbn [flat_map map snd concat]. rewrite map_app, IH. f_equal. unfold tci. cbn [fst snd] in *. rewrite map_map. cbn [fst snd].
  unfold blen in Hl. now rewrite map_snd_combine by now rewrite Hl.
Qed.
Lemma cells_ok bs : Forall netgen_block bs -> Forall (fun tc => exists d w, In (fst tc, (d, w)) netgen_types /\ length (snd tc) = w /\ Forall (fun i => (0 <= i < 2147483647)%Z) (snd tc)) (all_cells bs).
Proof.
  induction 1 as [|b bs (d & w & Ht & Hr) _ IH]; [constructor|]. rewrite all_cells_cons. apply Forall_app. split; auto. apply Forall_map.
  eapply Forall_impl; [|exact Hr]. intros c [L H]. exists d, w. auto.
Qed.
Lemma shift_back c : Forall (fun i => (0 <= i < 2147483647)%Z) c -> map (fun i => u32 (i - 1)) (map (fun i => (i + 1)%Z) c) = c.
Proof. intros H. rewrite map_map. apply map_id_in. intros i Hi. pose proof (proj1 (Forall_forall _ _) H i Hi) as Hb. cbv beta in Hb. rewrite u32_id; lia. Qed.
Lemma permute_shift p c r : permute p c = Some r -> permute p (map (fun i => (i + 1)%Z) c) = Some (map (fun i => (i + 1)%Z) r).
Proof.
  intros H. unfold permute in *. revert r H. induction p as [|i p IH]; intros r H; cbn [map mapO] in *; [injection H as <-; reflexivity|].
  rewrite nth_error_map. destruct (nth_error c i) as [x|]; [|discriminate]. cbn [option_map]. destruct (mapO (fun i => nth_error c i) p) as [r'|]; [|discriminate]. rewrite (IH r' eq_refl). injection H as <-. reflexivity.
Qed.

Lemma finish_ok {fl : floats} (pts : ng_array fl) fd ids types two l d0 : Forall good_pair l ->
  let bs := regroup (all_cells (map fst l)) in
  ng_finish (NgState d0 pts (flat_map tci l) fd ids types two) = Ok (NgOut pts bs (data_for bs (concat (map snd l))) fd (option_map (fun i => (i, types)) ids)).
Proof.
  intros Hg bs. assert (Hb : Forall netgen_block (map fst l)) by (apply Forall_map; eapply Forall_impl; [|exact Hg]; intros a Ha; apply Ha).
  unfold ng_finish. cbn [gs_cells gs_points gs_field gs_ids gs_types].
  assert (Ef : fold_left (fun bs tci => snoc_cell bs (fst (fst tci)) (snd (fst tci))) (flat_map tci l) [] = regroup (map (fun tc => (fst tc, in_file (fst tc) (snd tc))) (all_cells (map fst l)))).
  { assert (G : forall (en : list (string * cell * Z)) acc, fold_left (fun bs x => snoc_cell bs (fst (fst x)) (snd (fst x))) en acc
      = fold_left (fun bs tc => snoc_cell bs (fst tc) (snd tc)) (map (fun x => (fst (fst x), snd (fst x))) en) acc) by (induction en as [|x en IH]; intros acc; [reflexivity|apply IH]).
    rewrite G, tci_types by auto. change (@nil block) with (regroup []). rewrite (snoc_fold ng_width); [reflexivity|]. cbn [app].
    apply Forall_map. eapply Forall_impl; [|exact (cells_ok _ Hb)]. intros [t c] (d & w & Ht & Lc & _). cbn [fst snd] in *.
    destruct (ng_facts _ _ _ Ht) as (p & _ & _ & Ew & _ & _ & _ & _ & _ & _ & Lo & _). unfold in_file, Flac3d.select. rewrite !map_length. congruence. }
  rewrite Ef. set (P := fun t (c c' : cell) => length c' = length c /\ forall p, dget t netgen_to_meshio_pmap = Some p -> exists r, permute p c' = Some r /\ map (fun i => u32 (i - 1)) r = c).
  assert (Rel : Forall2 (fun b b' => btype b' = btype b /\ Forall2 (P (btype b)) (bdata b) (bdata b')) (regroup (all_cells (map fst l))) (regroup (map (fun tc => (fst tc, in_file (fst tc) (snd tc))) (all_cells (map fst l))))).
  { apply (regroup_related P); [unfold P; tauto|].
    assert (W := cells_ok _ Hb). clear - W. induction W as [|[t c] l' (d & w & Ht & Lc & Hc) _ IH]; [constructor|]. cbn [map]. constructor; auto. cbn [fst snd] in *.
    destruct (ng_facts _ _ _ Ht) as (p & _ & _ & _ & _ & _ & _ & _ & _ & _ & Lo & _). split; [reflexivity|]. split.
    - unfold in_file, Flac3d.select. rewrite !map_length. congruence.
    - intros q Hq. exists (map (fun i => (i + 1)%Z) c). split; [|now apply shift_back]. unfold in_file. apply permute_shift. now apply (order_back t d w). }
  assert (Types : Forall (fun b => exists d w, In (btype b, (d, w)) netgen_types) (regroup (all_cells (map fst l)))).
  { assert (W := cells_ok _ Hb). rewrite <- (regroup_cells (all_cells (map fst l))) in W. assert (N := grouped_nonempty _ (regroup_grouped (all_cells (map fst l)))).
    clear - W N. induction (regroup (all_cells (map fst l))) as [|b l' IH]; [constructor|]. rewrite all_cells_cons in W. apply Forall_app in W as [W1 W2]. inversion N; subst. constructor; auto.
    destruct (bdata b) as [|c cs]; [congruence|]. inversion W1 as [|? ? (d & w & X & _) _]; subst. exists d, w. exact X. }
  fold bs in Rel, Types. set (bs1 := regroup (map _ _)) in *.
  assert (Em : mapM (fun b => do p <- of_option KeyError (dget (btype b) netgen_to_meshio_pmap);
      do rows <- mapM (fun c => do r <- of_option ValueError (permute p c); Ok (map (fun i => u32 (i - 1)) r)) (bdata b); Ok (Block (btype b) rows)) bs1 = Ok bs /\
    map blen bs1 = map blen bs /\ exists ds, mapM (fun b => cellblock_dim (btype b)) bs = Ok ds).
  { clear - Rel Types. induction Rel as [|b b' bs bs' (Et & Hd) _ IH]; [split; [reflexivity|split; [reflexivity|now exists []]]|]. inversion Types as [|? ? (d & w & Ht) Tys]; subst. destruct (IH Tys) as (IH1 & IH2 & ds & IH3). cbn [mapM map].
    destruct (ng_facts _ _ _ Ht) as (p & _ & Ep & _ & _ & Ec & _). rewrite Et, Ep. cbn [of_option bind].
    assert (Er : mapM (fun c => do r <- of_option ValueError (permute p c); Ok (map (fun i => u32 (i - 1)) r)) (bdata b') = Ok (bdata b)).
    { apply mapM_Forall2. clear - Hd Ep. induction Hd as [|c c' l l' (Lc & Hc) _ IHd]; constructor; auto. destruct (Hc p Ep) as (r & -> & Er). cbn [of_option bind]. now rewrite Er. }
    rewrite Er. cbn [bind]. rewrite IH1. cbn [bind]. split; [destruct b; reflexivity|]. split; [f_equal; [|exact IH2]; unfold blen; symmetry; exact (Forall2_length _ _ _ Hd)|].
    rewrite Ec. cbn [bind]. rewrite IH3. cbn [bind]. eexists. reflexivity. }
  destruct Em as (Em1 & Em2 & ds & Em3). rewrite Em1. cbn [bind]. rewrite Em3. cbn [bind]. rewrite Em2, tci_index by auto. reflexivity.
Qed.
