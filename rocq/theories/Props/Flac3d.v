(** FLAC3D grids: orientation of zones (C45) and cell sets (C46). *)
From Coq Require Import Permutation InitialRing.
From Verif.Lib Require Import Base Facts Facts2 Text TextFacts Lines LinesFacts Bytes BytesFacts File.
From Verif.Model Require Import Core Tables Flac3d.
From Verif.Spec Require Import Core Blocks Flac3d.
From Verif.Proofs Require Import Blocks Ply Flac3d Flac3dSets Flac3dFile Flac3dBinary Flac3dGeometry.

Definition int_geom : geom Z := Geom Z.add Z.sub Z.mul (fun x => (0 <? x)%Z).

(** A hexahedron, a left-handed tetrahedron and a right-handed one. *)
Definition grid : flac_in Z := FlacIn
  [[0; 0; 0]; [1; 0; 0]; [1; 1; 0]; [0; 1; 0]; [0; 0; 1]; [1; 0; 1]; [1; 1; 1]; [0; 1; 1]; [5; 5; 5]]%Z
  [Block "hexahedron" [[0; 1; 2; 3; 4; 5; 6; 7]%Z]; Block "tetra" [[4; 5; 6; 8]%Z; [4; 6; 5; 8]%Z]]
  [("first", [[0]%Z; []]); ("second", [[]; [1; 0]%Z])]%string.
(** A mesh with one block. *)
Definition tets : flac_in Z := FlacIn
  [[0; 0; 0]; [1; 0; 0]; [0; 1; 0]; [0; 0; 1]; [5; 5; 5]]%Z
  [Block "tetra" [[0; 1; 2; 3]%Z; [1; 3; 2; 4]%Z]] [("all", [[0; 1]%Z]); ("last one", [[1]%Z])]%string.

(** ** C45 *)
(** With exact arithmetic, the first edges of all zones of the file form a right-handed system (or are in a plane).
    The zones are those listed in the file, with node numbers that refer to its gridpoints. *)
Theorem C45_orientation : forall {fl : floats} (g : geom fl) zero one opp v date (m : flac_in fl),
  exact_arithmetic g zero one opp -> floats_ok fl ->
  Forall (fun p => length p = 3) (fi_points m) -> Forall (zone_block (length (fi_points m))) (fi_cells m) ->
  NoDup (dkeys (fi_sets m)) -> Forall (fun kv => quotable (fst kv) /\ zone_set (fi_cells m) (snd kv)) (fi_sets m) ->
  exists ls after raw, write_flac3d g v date m = Ok (ls, after) /\ flac_loop (length ls) empty_raw ls = Ok raw /\
    fr_points raw = fi_points m /\ length (all_cells (fr_zcells raw)) = length (all_cells (fi_cells m)) /\
    Forall (fun tc => exists x, triple g (fi_points m) (snd tc) = Some x /\ (x = zero \/ gpos g x = true)) (all_cells (fr_zcells raw)).
Proof.
  intros fl g zero one opp v date m [Hr Hsg] Hf Hp Hb Hn Hs. destruct (flac3d_raw g v date m Hf Hp Hb Hn Hs) as (ls & Ew & Er).
  do 3 eexists. split; [exact Ew|]. split; [exact Er|]. cbn [fr_points fr_zcells]. split; [reflexivity|]. rewrite regroup_cells.
  split; [apply map_length|]. apply Forall_forall. intros tc Hin. apply in_map_iff in Hin. destruct Hin as ([t c] & <- & Hin).
  exact (oriented g zero one opp Hr Hsg (fi_points m) (fi_cells m) t c Hp Hb Hin).
Qed.
Print Assumptions C45_orientation.

(** Writing a text file and reading it: the same points, and every cell, in order, as its corners if it is right-handed
    and as its mirror image otherwise. *)
Theorem C45_text : forall {fl : floats} (g : geom fl) v date (m : flac_in fl), floats_ok fl ->
  Forall (fun p => length p = 3) (fi_points m) -> Forall (zone_block (length (fi_points m))) (fi_cells m) ->
  NoDup (dkeys (fi_sets m)) -> Forall (fun kv => quotable (fst kv) /\ zone_set (fi_cells m) (snd kv)) (fi_sets m) ->
  exists ls after out, write_flac3d g v date m = Ok (ls, after) /\ read_flac3d (fl := fl) ls = Ok out /\
    fo_points out = fi_points m /\ fo_cells out = regroup (map (zone_seen g (fi_points m)) (all_cells (fi_cells m))) /\
    fo_ids out = data_for (fo_cells out) (map Z.of_nat (seq 1 (length (all_cells (fi_cells m))))).
Proof.
  intros fl g v date m Hf Hp Hb Hn Hs. destruct (flac3d_ascii g v date m Hf Hp Hb Hn Hs) as (ls & Ew & Er).
  do 3 eexists. split; [exact Ew|]. split; [exact Er|]. repeat split.
Qed.
Print Assumptions C45_text.

Theorem C45_binary : forall {F} (g : geom F) (c8 : codec F) (m : flac_in F) b after, codec_width c8 8 -> Forall (Forall (exact c8)) (fi_points m) ->
  Forall (fun p => length p = 3) (fi_points m) -> Forall (zone_block (length (fi_points m))) (fi_cells m) ->
  NoDup (dkeys (fi_sets m)) -> Forall (fun kv => zone_set (fi_cells m) (snd kv)) (fi_sets m) ->
  write_flac3d_binary g c8 m = Ok (b, after) ->
  exists out, read_flac3d_binary c8 b = Ok out /\
    fo_points out = fi_points m /\ fo_cells out = regroup (map (zone_seen g (fi_points m)) (all_cells (fi_cells m))) /\
    fo_ids out = data_for (fo_cells out) (map Z.of_nat (seq 1 (length (all_cells (fi_cells m))))).
Proof.
  intros F g c8 m b after Hc Hx Hp Hb Hn Hs Hw. destruct (flac3d_binary g c8 Hc m b after Hx Hp Hb Hn Hs Hw) as [_ Er].
  eexists. split; [exact Er|]. repeat split.
Qed.
Print Assumptions C45_binary.

(** The reader tells the two kinds of files apart: it looks for a zero byte among the first eight. *)
Theorem C45_kind_text : forall {fl : floats} (g : geom fl) v date (m : flac_in fl) ls after,
  write_flac3d g v date m = Ok (ls, after) -> is_binary (string_bytes (text_of ls)) = false.
Proof.
  intros fl g v date m ls after. unfold write_flac3d. intros H.
  repeat match type of H with bind ?x _ = _ => destruct x; [|discriminate]; cbn [bind] in H end.
  assert (E : exists s rest, ls = (String "*" (String " " (String "F" (String "L" (String "A" (String "C" (String "3" (String "D" s))))))))%string :: rest) by (injection H as <- _; now eexists _, _).
  destruct E as (s & rest & ->). destruct rest; reflexivity.
Qed.
Print Assumptions C45_kind_text.
Theorem C45_kind_binary : forall {F} (g : geom F) (c8 : codec F) (m : flac_in F) b after,
  write_flac3d_binary g c8 m = Ok (b, after) -> is_binary b = true.
Proof.
  intros F g c8 m b after. unfold write_flac3d_binary. set (h := packs 4 _). vm_compute in h. subst h. cbn [bind]. intros H.
  repeat match type of H with bind ?x _ = _ => destruct x; [|discriminate]; cbn [bind] in H end. injection H as <- _. reflexivity.
Qed.
Print Assumptions C45_kind_binary.

(** What is read back has the corners of the cell as its nodes. *)
Theorem C45_same_nodes : forall {F} (g : geom F) pts t c s, dget t zone_shapes = Some s -> sh_corners s <= length c ->
  Permutation (snd (zone_seen g pts (t, c))) (firstn (sh_corners s) c).
Proof.
  intros F g pts t c s Hs Hl. unfold zone_seen. cbn [fst snd]. rewrite Hs. cbn [snd]. rewrite <- select_seq by auto.
  destruct (right_handed g pts s c); [reflexivity|]. unfold select. apply Permutation_map. eapply mirror_perm; eauto.
Qed.
Print Assumptions C45_same_nodes.

(** The mirror image is the same solid with the opposite orientation: its faces are the faces of the cell, with the nodes
    in reversed order. *)
Theorem C45_mirror : forall t s row f, dget t zone_shapes = Some s -> In f (shape_faces s) ->
  exists f', In f' (shape_faces s) /\ rotation (rev (select f' row)) (select f (select (sh_mirror s) row)).
Proof. exact mirror_faces. Qed.
Print Assumptions C45_mirror.

(** A mesh with a block that is not three-dimensional is not written. *)
Theorem C45_zones_only : forall {fl : floats} (g : geom fl) v date (m : flac_in fl) b,
  In b (fi_cells m) -> dget (btype b) zone_shapes = None -> exists e, write_flac3d g v date m = Err e.
Proof.
  intros fl g v date m b Hb Hn. unfold write_flac3d. destruct (mapM gridpoint_line _) as [pl|e]; [|now exists e]. cbn [bind].
  assert (Hz : dget (btype b) flac3d_zones = None).
  { destruct (dget (btype b) flac3d_zones) as [k|] eqn:E; [|reflexivity]. exfalso. apply dget_In in E.
    revert Hn E. generalize (btype b). intros t Hn E. cbn in E. repeat (destruct E as [E|E]; [injection E as <- <-; discriminate Hn|]). destruct E. }
  assert (X : exists e, translate_zcells g (fi_points m) (fi_cells m) = Err e).
  { unfold translate_zcells. revert Hb. generalize (fi_cells m). induction l as [|b' l IH]; intros Hin; [destruct Hin|]. cbn [mapM].
    destruct Hin as [->|Hin]; [rewrite Hz; cbn; eauto|]. destruct (IH Hin) as (e & ->). clear IH.
    match goal with |- context [bind ?x _] => destruct x as [y|e'] end; cbn [bind]; eauto. }
  destruct X as (e & ->). cbn [bind]. eauto.
Qed.
Print Assumptions C45_zones_only.

Lemma grid_ok : Forall (fun p => length p = 3) (fi_points grid) /\ Forall (zone_block 9) (fi_cells grid) /\ NoDup (dkeys (fi_sets grid)) /\
  Forall (fun kv => quotable (fst kv) /\ zone_set (fi_cells grid) (snd kv)) (fi_sets grid).
Proof.
  split; [repeat constructor|]. split.
  - repeat constructor; eexists; (split; [reflexivity|]); repeat constructor; cbn; lia.
  - split; [repeat constructor; cbn; intuition discriminate|].
    repeat constructor; cbn; try discriminate; unfold blen; cbn; lia.
Qed.
Example C45_hypotheses : exact_arithmetic int_geom 0%Z 1%Z Z.opp /\ floats_ok int_floats /\ codec_width (int_codec 8) 8 /\
  (do w <- write_flac3d (fl := int_floats) int_geom "5" "today" grid; do o <- read_flac3d (fl := int_floats) (fst w); Ok (fo_points o, fo_cells o)) =
  Ok (fi_points grid, [Block "hexahedron" [[0; 1; 2; 3; 4; 5; 6; 7]%Z]; Block "tetra" [[4; 5; 6; 8]%Z; [4; 5; 6; 8]%Z]]) /\
  (do w <- write_flac3d_binary int_geom (int_codec 8) grid; do o <- read_flac3d_binary (int_codec 8) (fst w); Ok (fo_points o, fo_cells o)) =
  Ok (fi_points grid, [Block "hexahedron" [[0; 1; 2; 3; 4; 5; 6; 7]%Z]; Block "tetra" [[4; 5; 6; 8]%Z; [4; 5; 6; 8]%Z]]).
Proof.
  split; [split; [exact Zth|cbn; lia]|]. split; [exact int_floats_ok|]. split; [intros z; apply sint_bytes_length|]. split; vm_compute; reflexivity.
Qed.

(** ** C46 *)
(** The full effect on cell sets: for every block the reader lists the members by their running numbers in the whole
    mesh, and the arrays of the caller are shifted. *)
Theorem C46_text : forall {fl : floats} (g : geom fl) v date (m : flac_in fl), floats_ok fl ->
  Forall (fun p => length p = 3) (fi_points m) -> Forall (zone_block (length (fi_points m))) (fi_cells m) ->
  NoDup (dkeys (fi_sets m)) -> Forall (fun kv => quotable (fst kv) /\ zone_set (fi_cells m) (snd kv)) (fi_sets m) ->
  exists ls after out, write_flac3d g v date m = Ok (ls, after) /\ read_flac3d (fl := fl) ls = Ok out /\
    fo_sets out = sets_seen zone_name (fi_cells m) (fo_cells out) (fi_sets m).
Proof.
  intros fl g v date m Hf Hp Hb Hn Hs. destruct (flac3d_ascii g v date m Hf Hp Hb Hn Hs) as (ls & Ew & Er).
  do 3 eexists. split; [exact Ew|]. split; [exact Er|]. reflexivity.
Qed.
Print Assumptions C46_text.
Theorem C46_binary : forall {F} (g : geom F) (c8 : codec F) (m : flac_in F) b after, codec_width c8 8 -> Forall (Forall (exact c8)) (fi_points m) ->
  Forall (fun p => length p = 3) (fi_points m) -> Forall (zone_block (length (fi_points m))) (fi_cells m) ->
  NoDup (dkeys (fi_sets m)) -> Forall (fun kv => zone_set (fi_cells m) (snd kv)) (fi_sets m) ->
  write_flac3d_binary g c8 m = Ok (b, after) ->
  exists out, read_flac3d_binary c8 b = Ok out /\ fo_sets out = sets_seen default_name (fi_cells m) (fo_cells out) (fi_sets m).
Proof.
  intros F g c8 m b after Hc Hx Hp Hb Hn Hs Hw. destruct (flac3d_binary g c8 Hc m b after Hx Hp Hb Hn Hs Hw) as [_ Er].
  eexists. split; [exact Er|]. reflexivity.
Qed.
Print Assumptions C46_binary.

(** With one block the sets come back with the same members, and the mesh of the caller is not changed. *)
Lemma seen_one_block {F} (g : geom F) pts n t rows : rows <> [] -> zone_block n (Block t rows) ->
  exists t' rows', regroup (map (zone_seen g pts) (all_cells [Block t rows])) = [Block t' rows'] /\ length rows' = length rows.
Proof.
  intros Hne (s & Hs & _). cbn [btype] in Hs. rewrite all_cells_cons. cbn [btype bdata all_cells flat_map]. rewrite app_nil_r, map_map.
  assert (E : map (fun c => zone_seen g pts (t, c)) rows = map (pair (sh_type s)) (map (fun c => snd (zone_seen g pts (t, c))) rows)).
  { rewrite map_map. apply map_ext. intros c. unfold zone_seen. cbn [fst snd]. now rewrite Hs. }
  rewrite E. exists (sh_type s), (map (fun c => snd (zone_seen g pts (t, c))) rows). split; [|apply map_length].
  destruct rows as [|c rows]; [congruence|]. cbn [map]. rewrite <- (app_nil_r (_ :: _)). apply (regroup_prepend (sh_type s) _ (map (fun c => snd (zone_seen g pts (t, c))) rows) []); [|discriminate].
  apply Forall_map, Forall_forall. intros c' _. unfold zone_seen. cbn [fst snd]. rewrite Hs. cbn [snd]. unfold select. rewrite !map_length.
  destruct (right_handed g pts s c'), (right_handed g pts s c); rewrite ?seq_length; auto;
    [symmetry; apply (shape_self t s Hs)|apply (shape_self t s Hs)].
Qed.
Lemma one_block_sets {F} (g : geom F) pts n t rows nm sets : zone_block n (Block t rows) ->
  Forall (fun kv => zone_set [Block t rows] (snd kv)) sets ->
  sets_seen nm [Block t rows] (regroup (map (zone_seen g pts) (all_cells [Block t rows]))) sets = map (fun kv => (nm (fst kv), snd kv)) sets.
Proof.
  intros Hb Hs. unfold sets_seen. apply map_ext_in. intros [k s] Hin. rewrite Forall_forall in Hs. specialize (Hs _ Hin). cbn [fst snd] in *. f_equal.
  destruct Hs as [H2 Hne]. inversion H2 as [|? l ? s' Hl H2']; subst. inversion H2'; subst. cbn [concat] in Hne. rewrite app_nil_r in Hne.
  unfold blen in Hl. cbn [bdata] in Hl.
  assert (Hr : rows <> []) by (intros ->; destruct l as [|i l]; [congruence|]; inversion Hl; cbn in *; lia).
  destruct (seen_one_block g pts n t rows Hr Hb) as (t' & rows' & -> & El). cbn [length seq map]. f_equal.
  unfold running, in_block, enumerate. cbn [length seq combine map concat fst snd first_cell firstn sum_nat]. rewrite app_nil_r.
  rewrite (map_ext _ (fun i => i)) by (intros; unfold first_cell; cbn; lia). rewrite map_id.
  unfold first_cell, blen. cbn [firstn map sum_nat bdata]. rewrite El.
  clear - Hl. induction Hl as [|i l Hi _ IH]; [reflexivity|]. cbn [filter].
  destruct (Z.leb_spec (Z.of_nat 0) i); [|lia]. destruct (Z.ltb_spec i (Z.of_nat (length rows + 0))); [|lia]. cbn [andb]. now rewrite IH.
Qed.
Lemma one_block_after {F} (m : flac_in F) b : fi_cells m = [b] -> sets_after m = fi_sets m.
Proof.
  intros E. unfold sets_after. rewrite E. rewrite (map_ext _ (fun x => x)); [apply map_id|]. intros [k s]. cbn [fst snd]. f_equal.
  destruct s as [|l s]; [reflexivity|]. cbn [shift_sets]. f_equal. rewrite (map_ext _ (fun i => i)) by (intros; lia). apply map_id.
Qed.

Theorem C46_one_block_partial : forall {fl : floats} (g : geom fl) v date (m : flac_in fl) b, floats_ok fl -> fi_cells m = [b] ->
  Forall (fun p => length p = 3) (fi_points m) -> zone_block (length (fi_points m)) b ->
  NoDup (dkeys (fi_sets m)) -> Forall (fun kv => quotable (fst kv) /\ zone_set [b] (snd kv)) (fi_sets m) ->
  exists ls out, write_flac3d g v date m = Ok (ls, fi_sets m) /\ read_flac3d (fl := fl) ls = Ok out /\
    fo_sets out = map (fun kv => ("zone:" ++ fst kv ++ ":1", snd kv)%string) (fi_sets m).
Proof.
  intros fl g v date m b Hf Eb Hp Hb Hn Hs.
  destruct (flac3d_ascii g v date m Hf Hp) as (ls & Ew & Er); auto; [rewrite Eb; auto|rewrite Eb; auto|].
  rewrite (one_block_after m b Eb) in Ew. do 2 eexists. split; [exact Ew|]. split; [exact Er|]. cbn [fo_sets]. rewrite Eb. destruct b as [t rows].
  rewrite (one_block_sets g _ _ t rows zone_name (fi_sets m) Hb); [reflexivity|]. eapply Forall_impl; [|exact Hs]. cbn. tauto.
Qed.
Print Assumptions C46_one_block_partial.
Theorem C46_one_block_binary_partial : forall {F} (g : geom F) (c8 : codec F) (m : flac_in F) bk b after, codec_width c8 8 ->
  fi_cells m = [bk] -> Forall (Forall (exact c8)) (fi_points m) ->
  Forall (fun p => length p = 3) (fi_points m) -> zone_block (length (fi_points m)) bk ->
  NoDup (dkeys (fi_sets m)) -> Forall (fun kv => zone_set [bk] (snd kv)) (fi_sets m) ->
  write_flac3d_binary g c8 m = Ok (b, after) ->
  after = fi_sets m /\ exists out, read_flac3d_binary c8 b = Ok out /\
    fo_sets out = map (fun kv => ("zone:" ++ fst kv ++ ":Default", snd kv)%string) (fi_sets m).
Proof.
  intros F g c8 m bk b after Hc Eb Hx Hp Hb Hn Hs Hw.
  destruct (flac3d_binary g c8 Hc m b after Hx Hp) as [Ea Er]; auto; [rewrite Eb; auto|rewrite Eb; auto|].
  rewrite (one_block_after m bk Eb) in Ea. split; [exact Ea|]. eexists. split; [exact Er|]. cbn [fo_sets]. rewrite Eb. destruct bk as [t rows].
  rewrite (one_block_sets g _ _ t rows default_name (fi_sets m) Hb); [reflexivity|]. exact Hs.
Qed.
Print Assumptions C46_one_block_binary_partial.

Lemma tets_ok : Forall (fun p => length p = 3) (fi_points tets) /\ Forall (zone_block 5) (fi_cells tets) /\ NoDup (dkeys (fi_sets tets)) /\
  Forall (fun kv => quotable (fst kv) /\ zone_set (fi_cells tets) (snd kv)) (fi_sets tets).
Proof.
  split; [repeat constructor|]. split.
  - repeat constructor; eexists; (split; [reflexivity|]); repeat constructor; cbn; lia.
  - split; [repeat constructor; cbn; intuition discriminate|].
    repeat constructor; cbn; try discriminate; unfold blen; cbn; lia.
Qed.
Example C46_hypotheses :
  (do w <- write_flac3d (fl := int_floats) int_geom "5" "today" tets; do o <- read_flac3d (fl := int_floats) (fst w); Ok (snd w, fo_sets o)) =
  Ok (fi_sets tets, [("zone:all:1", [[0; 1]%Z]); ("zone:last one:1", [[1]%Z])])%string.
Proof. vm_compute. reflexivity. Qed.

(** Several blocks: the second set of the grid consists of both cells of its second block.  Read back, the numbers are
    1 and 2, although the block has two cells, and the arrays of the caller have been changed.  Writing once more gives a
    different file. *)
Theorem C46_several_blocks_refuted :
  (do w <- write_flac3d (fl := int_floats) int_geom "5" "today" grid; do o <- read_flac3d (fl := int_floats) (fst w);
   Ok (dget "zone:second:1"%string (fo_sets o), map blen (fo_cells o), snd w)) =
  Ok (Some [[]; [2; 1]%Z], [1; 2], [("first", [[0]%Z; []]); ("second", [[]; [2; 1]%Z])])%string /\
  fi_sets grid = [("first", [[0]%Z; []]); ("second", [[]; [1; 0]%Z])]%string /\
  (exists l1 a1 l2 a2, write_flac3d (fl := int_floats) int_geom "5" "today" grid = Ok (l1, a1) /\
    write_flac3d (fl := int_floats) int_geom "5" "today" (FlacIn (fi_points grid) (fi_cells grid) a1) = Ok (l2, a2) /\ l1 <> l2).
Proof.
  split; [vm_compute; reflexivity|]. split; [reflexivity|].
  do 4 eexists. split; [vm_compute; reflexivity|]. split; [vm_compute; reflexivity|]. discriminate.
Qed.
(** A set without members makes the file unreadable. *)
Theorem C46_empty_set_refuted :
  exists w, write_flac3d (fl := int_floats) int_geom "5" "today" (FlacIn (fi_points tets) (fi_cells tets) [("none", [[]])]%string) = Ok w /\
    read_flac3d (fl := int_floats) (fst w) = Err IndexError.
Proof. eexists. split; vm_compute; reflexivity. Qed.
Print Assumptions C46_several_blocks_refuted.
