(** Reading of MSH 2.2 text files of Gmsh (C83). *)
From Verif.Lib Require Import Base Facts Facts2 Text TextFacts Lines LinesFacts Runs Perm BytesFacts.
From Verif.Model Require Import Core Gmsh Gmsh22.
From Verif.Spec Require Import Core Blocks Gmsh Gmsh22 Msh2File Msh2Data.
From Verif.Proofs Require Import Core CoreMisc Blocks VtuPoly Gmsh Gmsh22 Gmsh22File.
Import ListNotations.
Local Open Scope list_scope.

Section Msh2.
Context {fl : floats}.
Hypothesis Hfl : floats_ok fl.

(** ** Links *)
Definition shift_link (p : periodic fl) : periodic fl :=
  Periodic (p_dim p) (p_slave p) (p_master p) (p_affine p) (map (fun ab => (fst ab - 1, snd ab - 1))%Z (p_nodes p)).
Lemma link_lines_shift p : link_lines p = write_link (shift_link p).
Proof.
  unfold link_lines, write_link, shift_link. cbn [p_dim p_slave p_master p_affine p_nodes]. rewrite map_length, map_map.
  do 3 f_equal. apply map_ext. intros [a b]. cbn [fst snd]. repeat f_equal; lia.
Qed.
Lemma links_lines ps : flat_map link_lines ps = flat_map write_link (map shift_link ps).
Proof. induction ps as [|p ps IH]; [reflexivity|]. cbn [map flat_map]. now rewrite link_lines_shift, IH. Qed.

(** ** Data *)
Lemma data_read (d : node_data fl) dd rest : plain_name (nd_name d) ->
  (exists nc, In nc [1; 3; 9] /\ Forall (fun r => length (snd r) = nc) (nd_rows d)) ->
  read_data "NodeData" dd (tl (data_lines d) ++ rest) = Ok (dset (nd_name d) (map snd (nd_rows d)) dd, rest).
Proof.
  intros (Hn & _) (nc & Hnc & Hr). unfold data_lines.
  assert (Hw : Forall (fun r => length (snd r) = width (nd_rows d)) (nd_rows d)).
  { destruct (nd_rows d) as [|r rows]; [constructor|]. inversion Hr; subst. exact Hr. }
  set (w := width (nd_rows d)) in *. clearbody w.
  cbn [app tl]. unfold read_data. cbn [line1 hd tl app].
  change (int_line "1") with (@Ok Z 1%Z). cbn [bind]. change (Z.to_nat 1) with 1.
  cbn [read_lines line1 hd tl bind fst snd].
  change (int_line "1") with (@Ok Z 1%Z). cbn [bind]. change (Z.to_nat 1) with 1.
  cbn [read_lines line1 hd tl bind fst snd].
  change (int_line "3") with (@Ok Z 3%Z). cbn [bind]. change (Z.to_nat 3) with 3.
  cbn [read_lines line1 hd tl bind fst snd].
  assert (Es : int_line (str_of_Z (nd_step d)) = Ok (nd_step d)).
  { unfold int_line. rewrite strip_word by apply word_str_of_Z. now rewrite parse_Z_str_of_Z. }
  rewrite Es. cbn [bind]. rewrite !int_line_nat. cbn [bind fst snd nth_error of_option].
  rewrite !Nat2Z.id, <- app_assoc.
  set (trows := map (fun kr : Z * list fl => str_of_Z (fst kr) :: map ffmt (snd kr)) (nd_rows d)).
  assert (El : map node_line (nd_rows d) = map row_line trows) by (unfold trows; now rewrite map_map).
  rewrite El.
  assert (Hlen : Forall (fun r => length r = S w) trows).
  { apply Forall_map. eapply Forall_impl; [|exact Hw]. intros r E. cbn [length]. now rewrite map_length, E. }
  assert (Hlc : length (concat trows) = length (nd_rows d) * S w).
  { rewrite (concat_uniform_length (S w)) by auto. unfold trows. rewrite map_length. lia. }
  rewrite take_rows with (rows := trows); auto.
  2: { apply solid_cons. now apply blank_word. }
  2: { apply Forall_map, Forall_forall. intros r _. split; [|discriminate]. cbn [forallb]. now rewrite word_str_of_Z, words_floats. }
  cbn [of_option bind fst snd].
  rewrite (chunks_concat (S w)) by (auto; lia).
  assert (Hp : mapM (fun r => @parse_floats fl (tl r)) trows = Ok (map snd (nd_rows d))).
  { unfold trows. clear - Hfl. induction (nd_rows d) as [|[k r] l IH]; [reflexivity|].
    cbn [map mapM tl snd fst]. rewrite parse_floats_ok by auto. cbn [bind]. now rewrite IH. }
  rewrite Hp. cbn [bind hd_error of_option]. rewrite unquote_quoted by auto. cbn [app]. rewrite skip_to_here by reflexivity. reflexivity.
Qed.

Lemma data_runs (ds : list (node_data fl)) st rest st'' m :
  Forall plain_name (map nd_name ds) ->
  Forall (fun d => exists nc, In nc [1; 3; 9] /\ Forall (fun r => length (snd r) = nc) (nd_rows d)) ds ->
  runs rest (RState (s_tags st) (s_points st) (s_cells st) (s_phys st) (s_geom st) (s_names st) (s_periodic st)
       (dupdate (s_pdata st) (map (fun d => (nd_name d, map snd (nd_rows d))) ds)) (s_craw st)) st'' m ->
  exists n, runs (flat_map data_lines ds ++ rest) st st'' n.
Proof.
  revert st; induction ds as [|d ds IH]; intros st Hk Hr Hrest.
  - exists m. destruct st. exact Hrest.
  - cbn [map] in Hk. inversion Hk as [|? ? Hk1 Hk2]; subst. inversion Hr as [|? ? Hr1 Hr2]; subst.
    destruct (IH (RState (s_tags st) (s_points st) (s_cells st) (s_phys st) (s_geom st) (s_names st) (s_periodic st)
               (dset (nd_name d) (map snd (nd_rows d)) (s_pdata st)) (s_craw st)) Hk2 Hr2 Hrest) as (n & Hn).
    exists (S n). cbn [flat_map]. rewrite <- app_assoc.
    change (data_lines d) with (("$" ++ "NodeData")%string :: tl (data_lines d)).
    change ((("$" ++ "NodeData")%string :: ?x) ++ ?y) with (("$" ++ "NodeData")%string :: (x ++ y)).
    eapply (runs_cons "NodeData"); [reflexivity| |exact Hn].
    destruct st as [s1 s2 s3 s4 s5 s6 s7 s8 s9].
    change (read_section "NodeData" ?ls (RState s1 s2 s3 s4 s5 s6 s7 s8 s9)) with
      (do r <- read_data "NodeData" s8 ls; Ok (@RState fl s1 s2 s3 s4 s5 s6 s7 (fst r) s9, snd r)).
    rewrite (data_read d s8 _ Hk1 Hr1). reflexivity.
Qed.

(** ** Tags of elements *)
Definition tagged (els : list element) : list (string * list Z) := map (fun e => (e_type e, e_tags e)) els.
Definition column_of (k : nat) (td : dict (list Z)) (t : string) : list Z :=
  match dget t td with Some l => l | None => [] end.
Definition count_type (t : string) (l : list string) : nat := length (filter (String.eqb t) l).

Lemma column_length k els t : length (column_of k (tag_column k (group_tags (tagged els))) t) =
  length (filter (fun e => String.eqb (e_type e) t && has_tag k e) els).
Proof.
  unfold column_of, tag_column, group_tags. rewrite dget_filter_nonempty.
  - rewrite (dget_map_val (flat_map (fun item : list Z => match nth_error item k with Some x => [x] | None => [] end))).
    rewrite dget_group. cbn [dget].
    assert (E : length (flat_map (fun item : list Z => match nth_error item k with Some x => [x] | None => [] end)
                 (map snd (filter (fun b : string * list Z => String.eqb (fst b) t) (tagged els))))
                = length (filter (fun e => String.eqb (e_type e) t && has_tag k e) els)).
    { unfold tagged. induction els as [|e els IH]; [reflexivity|]. cbn [map filter fst].
      destruct (String.eqb (e_type e) t); cbn [andb]; auto. cbn [map flat_map snd]. rewrite app_length, IH.
      unfold has_tag. destruct (nth_error (e_tags e) k) eqn:En.
      - assert (L : k < length (e_tags e)) by (apply nth_error_Some; congruence). apply Nat.ltb_lt in L. rewrite L. reflexivity.
      - apply nth_error_None in En. apply Nat.ltb_ge in En. rewrite En. reflexivity. }
    destruct (map snd (filter _ (tagged els))) eqn:F; cbn [option_map]; rewrite <- E; reflexivity.
  - rewrite (dkeys_map_val (flat_map _)). rewrite (dkeys_group fst snd). cbn [dkeys map app smem existsb negb].
    apply NoDup_filter. apply NoDup_first_occurrences.
Qed.

(** If the slices fit the blocks, there are enough tags of every type. *)
Lemma spread_enough td bs : forall offset, lengths_fit bs (spread_tags offset td bs) = true ->
  Forall (fun b => 0 < blen b) bs -> forall t,
  count_type t (map fst (all_cells bs)) = 0 \/
  match dget t offset with Some o => o | None => 0 end + count_type t (map fst (all_cells bs)) <=
    length match dget t td with Some l => l | None => [] end.
Proof.
  induction bs as [|b bs IH]; intros offset Hf Hp t; [now left|].
  inversion Hp as [|? ? Hb Hp']; subst. cbn [spread_tags] in Hf. unfold lengths_fit in Hf. cbn [length combine forallb fst snd] in Hf.
  apply andb_true_iff in Hf. destruct Hf as [Hl Hf]. apply andb_true_iff in Hf. destruct Hf as [Hb1 Hf].
  apply Nat.eqb_eq in Hb1. rewrite all_cells_cons, map_app, map_map. cbn [fst].
  set (start := match dget (btype b) offset with Some o => o | None => 0 end) in *.
  assert (Hf' : lengths_fit bs (spread_tags (dset (btype b) (start + blen b) offset) td bs) = true).
  { unfold lengths_fit. rewrite Hf, andb_true_r. exact Hl. }
  specialize (IH _ Hf' Hp' t). rewrite dget_dset in IH.
  assert (Hs : start + blen b <= length match dget (btype b) td with Some l => l | None => [] end).
  { unfold slice in Hb1. rewrite firstn_length, skipn_length in Hb1. lia. }
  unfold count_type in *. rewrite filter_app, app_length.
  assert (Ec : length (filter (String.eqb t) (map (fun _ => btype b) (bdata b))) = if String.eqb t (btype b) then blen b else 0).
  { unfold blen. clear. induction (bdata b) as [|c cs IH]; cbn [map filter length]; [now destruct (String.eqb t (btype b))|].
    destruct (String.eqb t (btype b)); cbn [length]; [now f_equal|exact IH]. }
  rewrite Ec. destruct (String.eqb_spec t (btype b)) as [Et|Hne].
  - right. rewrite Et in IH |- *. fold start. destruct IH as [E|E]; lia.
  - exact IH.
Qed.

Lemma filter_short {A} (p q : A -> bool) l : length (filter p l) <= length (filter (fun x => p x && q x) l) ->
  forall x, In x l -> p x = true -> q x = true.
Proof.
  assert (G : forall l, length (filter (fun x => p x && q x) l) <= length (filter p l)).
  { induction l0 as [|y l0 IH]; [auto|]. cbn [filter]. destruct (p y), (q y); cbn [andb length]; lia. }
  induction l as [|y l IH]; intros H x Hx Hpx; [destruct Hx|]. cbn [filter] in H. destruct Hx as [->|Hx].
  - rewrite Hpx in H. cbn [andb] in H. destruct (q x); [reflexivity|]. cbn [length] in H. specialize (G l). lia.
  - apply IH; auto. destruct (p y), (q y); cbn [andb length] in H; try lia; specialize (G l); lia.
Qed.

Variable tags : list Z.
Lemma cells_types els : map fst (map (element_cell tags) els) = map e_type els.
Proof. rewrite map_map. reflexivity. Qed.

Lemma regroup_pos l : Forall (fun b => 0 < blen b) (regroup l).
Proof.
  pose proof (regroup_grouped l) as G. induction (regroup l) as [|b bs IH]; constructor.
  - destruct G as [(c & cs & Hb & _) _]. unfold blen. rewrite Hb. cbn. lia.
  - apply IH. now destruct G.
Qed.

Definition column_read (k : nat) (els : list element) : option (list (list Z)) :=
  if existsb (has_tag k) els
  then Some (data_for (regroup (map (element_cell tags) els)) (map (fun e => nth k (e_tags e) 0%Z) els)) else None.

Lemma column_none k els : existsb (has_tag k) els = false -> tag_column k (group_tags (tagged els)) = [].
Proof.
  intros H. destruct (tag_column k (group_tags (tagged els))) as [|[t l] td] eqn:E; [reflexivity|]. exfalso.
  pose proof (column_length k els t) as C. rewrite E in C. unfold column_of in C. cbn [dget] in C. rewrite String.eqb_refl in C.
  assert (N : filter (fun e => String.eqb (e_type e) t && has_tag k e) els = []).
  { clear - H. induction els as [|e els IH]; [reflexivity|]. cbn [existsb] in H. apply orb_false_iff in H. destruct H as [H1 H2].
    cbn [filter]. rewrite H1, andb_false_r. auto. }
  rewrite N in C. cbn in C. destruct l; [|discriminate C].
  assert (I : In (t, []) (tag_column k (group_tags (tagged els)))) by (rewrite E; now left).
  unfold tag_column in I. apply filter_In in I. destruct I as [_ I]. discriminate I.
Qed.

Lemma some_tags_ne td bs : td <> [] -> some_tags td bs = Some (spread_tags [] td bs).
Proof. destruct td; [congruence|reflexivity]. Qed.

Lemma some_tags_column k els :
  let bs := regroup (map (element_cell tags) els) in
  let out := some_tags (tag_column k (group_tags (tagged els))) bs in
  if forallb (has_tag k) els || negb (existsb (has_tag k) els)
  then out = column_read k els /\ match out with Some d => lengths_fit bs d | None => true end = true
  else match out with Some d => lengths_fit bs d | None => true end = false.
Proof.
  intros bs out. unfold out, column_read. destruct (existsb (has_tag k) els) eqn:Ex.
  2:{ rewrite orb_true_r. rewrite (column_none k els Ex). auto. }
  rewrite orb_false_r. destruct (forallb (has_tag k) els) eqn:Ea.
  - set (xs := map (fun e => (e_type e, nth k (e_tags e) 0%Z)) els).
    assert (H : Forall2 (fun v x => fst v = fst x /\ nth_error (snd v) k = Some (snd x)) (tagged els) xs).
    { unfold tagged, xs. clear - Ea. induction els as [|e els IH]; [constructor|]. cbn [forallb] in Ea. apply andb_true_iff in Ea.
      destruct Ea as [H1 H2]. cbn [map]. constructor; auto. cbn [fst snd]. split; [reflexivity|]. apply nth_error_nth'.
      now apply Nat.ltb_lt. }
    rewrite some_tags_ne.
    2:{ intros Et. apply (tag_column_nil k _ _ H) in Et. unfold xs in Et. destruct els; discriminate. }
    assert (S : spread_tags [] (tag_column k (group_tags (tagged els))) bs = data_for bs (map snd xs)).
    { apply (spread_spec _ _ [] []).
      - unfold bs. rewrite regroup_cells, cells_types. unfold xs. now rewrite map_map.
      - intros t. cbn [app]. now apply tag_column_spec.
      - reflexivity. }
    assert (Ss : map snd xs = map (fun e => nth k (e_tags e) 0%Z) els) by (unfold xs; rewrite map_map; reflexivity).
    rewrite S, Ss. split; [reflexivity|].
    apply lengths_fit_data. rewrite map_length. unfold bs. rewrite regroup_cells, map_length. reflexivity.
  - rewrite some_tags_ne.
    2:{ intros Et. apply existsb_exists in Ex. destruct Ex as (e & Hin & He).
      pose proof (column_length k els (e_type e)) as C. rewrite Et in C. cbn in C.
      assert (N : In e (filter (fun e' => String.eqb (e_type e') (e_type e) && has_tag k e') els)).
      { apply filter_In. split; [exact Hin|]. now rewrite String.eqb_refl. }
      destruct (filter _ els); [exact N|discriminate C]. }
    destruct (lengths_fit bs (spread_tags [] (tag_column k (group_tags (tagged els))) bs)) eqn:Ef; [|reflexivity].
    exfalso. assert (A : forallb (has_tag k) els = true); [|congruence]. apply forallb_forall. intros e Hin.
    pose proof (spread_enough _ bs [] Ef (regroup_pos _) (e_type e)) as Q. cbn [dget] in Q.
    unfold bs in Q. rewrite regroup_cells, cells_types in Q.
    pose proof (column_length k els (e_type e)) as C. unfold column_of in C.
    assert (Cn : count_type (e_type e) (map e_type els) = length (filter (fun e' => String.eqb (e_type e') (e_type e)) els)).
    { unfold count_type. clear. generalize (e_type e) as t. intros t. induction els as [|x els IH]; [reflexivity|]. cbn [map filter].
      rewrite String.eqb_sym. destruct (String.eqb (e_type x) t); cbn [length]; auto. }
    rewrite Cn in Q. apply (filter_short (fun e' => String.eqb (e_type e') (e_type e)) (has_tag k) els); auto; [|apply String.eqb_refl].
    rewrite <- C. destruct Q as [Q|Q]; [|lia]. rewrite Q. lia.
Qed.
End Msh2.

Section File.
Context {fl : floats}.
Hypothesis Hfl : floats_ok fl.

Lemma combine_self {A B} (l : list (A * B)) : combine (map fst l) (map snd l) = l.
Proof. induction l as [|[a b] l IH]; [reflexivity|]. cbn. now rewrite IH. Qed.

(** What the constructor of the mesh makes of the sections *)
Definition with_cells (f : file22 fl) (names : dict (Z * Z)) (cr : dict (list (list fl))) : gmesh fl :=
  let m := file22_mesh f names in
  GMesh (g_points m) (g_cells m) (g_phys m) (g_geom m) (g_extra m) (g_names m) (g_periodic m) (g_pdata m)
    (map (fun kv => (fst kv, data_for (file22_blocks f) (snd kv))) cr).
Lemma file22_finish_data (f : file22 fl) cr names : file22_ok f -> Forall (fun kv => length (snd kv) = length (f2_elements f)) cr ->
  let tags := file22_tags f in
  let td := group_tags (tagged (f2_elements f)) in
  finish22 (RState tags (map snd (f2_nodes f)) (file22_blocks f) (tag_column 0 td) (tag_column 1 td) names
    (option_map (map shift_link) (f2_links f)) (map (fun d => (nd_name d, map snd (nd_rows d))) (f2_data f)) cr) =
  if tags_agree 0 f && tags_agree 1 f && match cr with [] => true | _ => two_each (file22_blocks f) end
  then Ok (with_cells f names cr) else Err ValueError.
Proof.
  intros [_ _ _ k4 _ _ k7] Hcr tags td.
  set (els := f2_elements f) in *. set (bs := file22_blocks f).
  set (pd := map (fun d => (nd_name d, map snd (nd_rows d))) (f2_data f)).
  assert (Hdim : Forall (fun tc : string * cell => exists d, cellblock_dim (fst tc) = Ok d) (map (element_cell tags) els)).
  { apply Forall_map. eapply Forall_impl; [|exact k4]. intros e (_ & _ & H). exact H. }
  unfold finish22. cbn [s_cells s_craw s_phys s_geom s_points s_pdata s_names s_periodic].
  destruct (regroup_dims _ Hdim) as (ds & Eds). unfold bs at 1, file22_blocks. fold tags els. rewrite Eds. cbn [bind].
  assert (Hpl : forallb (fun kv : string * list (list fl) => Nat.eqb (length (snd kv)) (length (map snd (f2_nodes f)))) pd = true).
  { apply forallb_forall. intros kv Hin. unfold pd in Hin. apply in_map_iff in Hin. destruct Hin as (d & <- & Hin). cbn [snd].
    rewrite Forall_forall in k7. destruct (k7 d Hin) as [E _]. rewrite !map_length.
    rewrite <- (map_length fst (nd_rows d)), E. unfold file22_tags. rewrite map_length. apply Nat.eqb_refl. }
  rewrite Hpl. cbn [andb].
  assert (Hsum : forall kv, In kv cr -> sum_nat (map blen bs) = length (snd kv)).
  { intros kv Hin. rewrite <- all_cells_length. unfold bs, file22_blocks. rewrite regroup_cells, map_length. rewrite Forall_forall in Hcr. symmetry. now apply Hcr. }
  assert (Hfit : forallb (fun kv => lengths_fit bs (snd kv)) (cell_data_from_raw (map (fun _ => 2) bs) cr) = match cr with [] => true | _ => two_each bs end).
  { unfold cell_data_from_raw.
    assert (G : forall kv, In kv cr -> lengths_fit bs (cell_data_from_raw1 (map (fun _ => 2) bs) (snd kv)) = two_each bs).
    { intros kv Hin. rewrite lengths_fit_two; [unfold two_each; now destruct bs|apply regroup_pos|auto]. }
    clear - G. destruct cr as [|kv l]; [reflexivity|]. cbn [map forallb snd]. rewrite G by now left.
    destruct (two_each bs) eqn:Es; [|reflexivity]. cbn [andb]. apply forallb_forall. intros x Hx.
    apply in_map_iff in Hx. destruct Hx as (kv2 & <- & Hin). cbn [snd]. apply G. now right. }
  rewrite Hfit. clear Hfit.
  destruct (match cr with [] => true | _ => two_each bs end) eqn:Es.
  2:{ rewrite andb_false_r. reflexivity. }
  rewrite andb_true_r. cbn [andb].
  assert (Ecd : cell_data_from_raw (map (fun _ => 2) bs) cr = map (fun kv => (fst kv, data_for bs (snd kv))) cr).
  { unfold cell_data_from_raw. apply map_ext_in. intros kv Hin. f_equal.
    assert (S : two_each bs = true) by (destruct cr; [destruct Hin|exact Es]).
    unfold two_each in S. destruct bs as [|b bs'] eqn:Em; [discriminate|]. rewrite <- Em in *.
    assert (S' : forallb (fun b => Nat.eqb (blen b) 2) (removelast bs) = true) by (rewrite Em in *; exact S).
    unfold cell_data_from_raw1, cumsum. rewrite (cumsum_two _ 0 S').
    change (cell_data_from_raw1 (map blen bs) (snd kv) = data_for bs (snd kv)).
    rewrite from_raw_split; [reflexivity|rewrite Em; discriminate|]. symmetry. auto. }
  rewrite Ecd.
  pose proof (some_tags_column tags 0 els) as C0. pose proof (some_tags_column tags 1 els) as C1. cbv zeta in C0, C1.
  unfold td. change (regroup (map (element_cell tags) els)) with bs in C0, C1. unfold tags_agree. fold els.
  destruct (forallb (has_tag 0) els || negb (existsb (has_tag 0) els)).
  2:{ rewrite C0. reflexivity. }
  destruct C0 as [E0 F0]. rewrite F0. cbn [andb].
  destruct (forallb (has_tag 1) els || negb (existsb (has_tag 1) els)).
  2:{ rewrite C1. reflexivity. }
  destruct C1 as [E1 F1]. rewrite F1. cbn [andb]. rewrite E0, E1. unfold with_cells, file22_mesh. reflexivity.
Qed.

Lemma file22_finish (f : file22 fl) names : file22_ok f ->
  let tags := file22_tags f in
  let td := group_tags (tagged (f2_elements f)) in
  finish22 (RState tags (map snd (f2_nodes f)) (file22_blocks f) (tag_column 0 td) (tag_column 1 td) names
    (option_map (map shift_link) (f2_links f)) (map (fun d => (nd_name d, map snd (nd_rows d))) (f2_data f)) []) =
  if tags_agree 0 f && tags_agree 1 f then Ok (file22_mesh f names) else Err ValueError.
Proof. intros W tags td. pose proof (file22_finish_data f [] names W (Forall_nil _)) as H. rewrite andb_true_r in H. exact H. Qed.

Lemma file22_tail (f : file22 fl) E cr : file22_ok f ->
  (forall a b c d e g h i, exists n, runs E (RState a b c d e g h i []) (RState a b c d e g h i cr) n) ->
  Forall (fun kv => length (snd kv) = length (f2_elements f)) cr ->
  exists body names, read_header (file22_lines f ++ E) = Ok ("2.2"%string, true, body) /\
    (forall k, dget k names = dget k (f2_names f)) /\
    read22 body = if tags_agree 0 f && tags_agree 1 f && match cr with [] => true | _ => two_each (file22_blocks f) end
                  then Ok (with_cells f names cr) else Err ValueError.
Proof.
  intros [[k1 k1'] [k2 k2'] k3 k4 k5 [k6 k6'] k7] HE Hcr.
  set (tags := file22_tags f). set (els := f2_elements f).
  set (bs := regroup (map (element_cell tags) els)).
  set (td := group_tags (tagged els)).
  set (ps := option_map (map shift_link) (f2_links f)).
  set (pd := map (fun d => (nd_name d, map snd (nd_rows d))) (f2_data f)).
  assert (Hk4 : Forall (element_ok tags) els) by (eapply Forall_impl; [|exact k4]; cbn; tauto).
  assert (Hdim : Forall (fun tc : string * cell => exists d, cellblock_dim (fst tc) = Ok d) (map (element_cell tags) els)).
  { apply Forall_map. eapply Forall_impl; [|exact k4]. intros e (_ & _ & H). exact H. }
  assert (Hc3 : Forall (fun p => length p = 3) (map snd (f2_nodes f))).
  { apply Forall_map. eapply Forall_impl; [|exact k3]. cbn. tauto. }
  assert (Ht1 : Forall (fun t => 1 <= t)%Z tags).
  { unfold tags, file22_tags. apply Forall_map. eapply Forall_impl; [|exact k3]. cbn. lia. }
  assert (Hne : tags <> []) by (unfold tags, file22_tags; destruct (f2_nodes f); [congruence|discriminate]).
  assert (Hd7 : Forall (fun d => exists nc, In nc [1; 3; 9] /\ Forall (fun r => length (snd r) = nc) (nd_rows d)) (f2_data f)).
  { eapply Forall_impl; [|exact k7]. cbn. tauto. }
  set (fin := fun nm => RState tags (map snd (f2_nodes f)) bs (tag_column 0 td) (tag_column 1 td) nm ps pd cr).
  set (tail := ["$Nodes"; str_of_nat (length (f2_nodes f))]%string ++ map node_line (f2_nodes f) ++ ["$EndNodes"%string]
    ++ ["$Elements"; str_of_nat (length (f2_elements f))]%string ++ map element_line (f2_elements f) ++ ["$EndElements"%string]
    ++ match f2_links f with
       | Some ps => ["$Periodic"; str_of_nat (length ps)]%string ++ flat_map link_lines ps ++ ["$EndPeriodic"%string]
       | None => []
       end
    ++ flat_map data_lines (f2_data f) ++ E).
  assert (T : forall nm, exists n, runs tail (RState [] [] [] [] [] nm None [] []) (fin nm) n).
  { intros nm.
    destruct (HE tags (map snd (f2_nodes f)) bs (tag_column 0 td) (tag_column 1 td) nm ps pd) as (n4 & R4).
    destruct (data_runs Hfl (f2_data f) (RState tags (map snd (f2_nodes f)) bs (tag_column 0 td) (tag_column 1 td) nm ps [] [])
                E (fin nm) n4 k6' Hd7) as (n3 & R3).
    { cbn [s_tags s_points s_cells s_phys s_geom s_names s_periodic s_pdata s_craw]. fold pd.
      rewrite dupdate_nil. 2:{ unfold pd, dkeys. rewrite map_map. exact k6. } exact R4. }
    assert (P2 : exists n, runs (match f2_links f with
       | Some ps => ["$Periodic"; str_of_nat (length ps)]%string ++ flat_map link_lines ps ++ ["$EndPeriodic"%string]
       | None => [] end ++ flat_map data_lines (f2_data f) ++ E)
       (RState tags (map snd (f2_nodes f)) bs (tag_column 0 td) (tag_column 1 td) nm None [] []) (fin nm) n).
    { unfold fin, ps in *. destruct (f2_links f) as [l|] eqn:El; [|exists n3; exact R3].
      exists (S n3).
      assert (Ew : ["$Periodic"; str_of_nat (length l)]%string ++ flat_map link_lines l ++ ["$EndPeriodic"%string]
                   = write_periodic (map shift_link l)).
      { unfold write_periodic. now rewrite links_lines, map_length. }
      rewrite Ew. change (write_periodic (map shift_link l)) with (("$" ++ "Periodic")%string :: tl (write_periodic (map shift_link l))).
      cbn [app]. eapply (runs_cons "Periodic" (tl (write_periodic (map shift_link l)))); [reflexivity| |exact R3].
      rewrite sec_periodic. rewrite (read_periodic_ok Hfl); [reflexivity|]. apply Forall_map.
      eapply Forall_impl; [|exact (k5 _ eq_refl)]. intros p Hp. exact Hp. }
    destruct P2 as (n2 & R2).
    assert (P1 : exists n, runs (["$Elements"; str_of_nat (length (f2_elements f))]%string ++ map element_line (f2_elements f) ++ ["$EndElements"%string]
       ++ match f2_links f with
       | Some ps => ["$Periodic"; str_of_nat (length ps)]%string ++ flat_map link_lines ps ++ ["$EndPeriodic"%string]
       | None => [] end ++ flat_map data_lines (f2_data f) ++ E)
       (RState tags (map snd (f2_nodes f)) [] [] [] nm None [] []) (fin nm) n).
    { exists (S n2). set (rest := match f2_links f with Some _ => _ | None => _ end ++ _) in *.
      replace (["$Elements"; str_of_nat (length (f2_elements f))]%string ++ map element_line (f2_elements f) ++ ["$EndElements"%string] ++ rest)
        with (("$" ++ "Elements")%string :: (str_of_nat (length els) :: map element_line els ++ ["$EndElements"%string]) ++ rest)
        by (cbn [app]; now rewrite <- app_assoc).
      eapply (runs_cons "Elements"); [reflexivity| |exact R2].
      destruct (read_elements_spec tags els rest Hne k2' Ht1 Hk4) as (p & g & Hr & -> & ->).
      rewrite sec_elements. cbn [app]. rewrite <- app_assoc. cbn [app]. rewrite Hr. reflexivity. }
    destruct P1 as (n1 & R1). exists (S n1). unfold tail.
    set (rest := ["$Elements"; _]%string ++ _) in *.
    replace (["$Nodes"; str_of_nat (length (f2_nodes f))]%string ++ map node_line (f2_nodes f) ++ ["$EndNodes"%string] ++ rest)
      with (("$" ++ "Nodes")%string :: (str_of_nat (length (f2_nodes f)) :: map node_line (f2_nodes f) ++ ["$EndNodes"%string]) ++ rest)
      by (cbn [app]; now rewrite <- app_assoc).
    eapply (runs_cons "Nodes"); [reflexivity| |exact R1].
    pose proof (node_rows_ok Hfl tags (map snd (f2_nodes f)) rest) as Hn.
    unfold tags, file22_tags in Hn. rewrite !map_length in Hn. specialize (Hn eq_refl Hc3). rewrite combine_self in Hn.
    rewrite sec_nodes. cbn [app]. rewrite <- app_assoc. cbn [app]. unfold node_line. rewrite Hn. reflexivity. }
  assert (B : exists names n, (forall k, dget k names = dget k (f2_names f)) /\
     runs (write_physical_names (f2_names f) ++ tail) rstate0 (fin names) n).
  { destruct (f2_names f) as [|e es] eqn:En.
    - destruct (T []) as (n & R). exists [], n. split; auto.
    - destruct (physical_names_ok (e :: es) tail) as (fd & Hr & Hg & Hh); auto; [discriminate|].
      destruct (T fd) as (n & R). exists fd, (S n). split; auto.
      destruct (write_physical_names (e :: es)) as [|h w] eqn:Ew; [discriminate|]. cbn [hd] in Hh. subst h.
      change ("$PhysicalNames"%string) with ("$" ++ "PhysicalNames")%string. cbn [app].
      eapply (runs_cons "PhysicalNames" w); [reflexivity| |exact R].
      unfold rstate0. rewrite sec_names. cbn [app tl] in Hr. rewrite Hr. reflexivity. }
  destruct B as (names & n & Hnames & R).
  exists (write_physical_names (f2_names f) ++ tail), names. split; [|split; [exact Hnames|]].
  { unfold file22_lines. rewrite <- !app_assoc. fold tail. unfold read_header. cbn [app length skip_comments line1 hd]. change (String.eqb (strip "$MeshFormat") "$Comments") with false.
    cbn iota. cbn [line1 hd tl]. change (String.eqb (strip "$MeshFormat") "$MeshFormat") with true. cbn iota.
    change (split_ws "2.2 0 8") with ["2.2"; "0"; "8"]%string. cbn [negb smem existsb String.eqb orb].
    change (negb (smem "0" ["0"; "1"]%string)) with false. cbn iota.
    change (parse_Z "8") with (Some 8%Z). cbn [of_option bind]. rewrite skip_to_here by reflexivity. reflexivity. }
  unfold read22. rewrite (runs_read22 _ _ _ _ R). cbn [bind].
  apply (file22_finish_data f cr names); [constructor; auto|exact Hcr].
Qed.
Lemma file22_read (f : file22 fl) : file22_ok f ->
  exists body names, read_header (file22_lines f) = Ok ("2.2"%string, true, body) /\
    (forall k, dget k names = dget k (f2_names f)) /\
    read22 body = if tags_agree 0 f && tags_agree 1 f then Ok (file22_mesh f names) else Err ValueError.
Proof.
  intros W. destruct (file22_tail f [] [] W) as (body & names & H1 & H2 & H3).
  - intros. exists 0. constructor.
  - constructor.
  - exists body, names. rewrite app_nil_r in H1. rewrite andb_true_r in H3. auto.
Qed.
End File.
