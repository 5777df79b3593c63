From Coq Require Import Lia ZArith.
From Verif.Lib Require Import Base Facts Facts2 Text TextFacts Lines LinesFacts.
From Verif.Model Require Import Core Tables Abaqus Snoc Avsucd Netgen.
From Verif.Spec Require Import Core Blocks Mdpa Netgen.
From Verif.Proofs Require Import Ply Gmsh Gmsh22 Xdmf Mdpa Abaqus Blocks Snoc CoreMisc AbaqusFile Permas AvsucdFile Netgen.
Import Model.Netgen.
Local Arguments str_of_nat : simpl never.
Local Arguments str_of_Z : simpl never.
Local Arguments String.eqb : simpl never.

(** ** The index of the blocks *)
Section Index.
Context {fl : floats} (m : ng_mesh fl) (d : nat).
Hypothesis Hg : netgen_good m d.

Lemma int_data_In (dd : dict (cdata fl)) v : int_data dd = Some v -> exists k, In (k, CInts v) dd.
Proof. induction dd as [|[k [w|s w]] dd IH]; cbn; [discriminate|intros [= ->]; eauto|]. intros H. destruct (IH H) as (k' & H'). eauto. Qed.
Lemma index_In v : index_data m = Some v -> exists k, In (k, CInts v) (ng_cdata m).
Proof.
  unfold index_data. destruct (dget "netgen:index" (ng_cdata m)) as [[w|s w]|] eqn:E; [intros [= ->]; apply dget_In in E; eauto| |]; apply int_data_In.
Qed.
Lemma index_written : ng_index m = Ok (match index_data m with Some v => map Some v | None => repeat None (length (ng_cells m)) end).
Proof.
  destruct Hg as (_ & _ & _ & _ & Hr & Hi & He & _). unfold ng_index, index_data.
  destruct (dget "netgen:index" (ng_cdata m)) as [[w|s w]|] eqn:E; [reflexivity| |].
  - apply dget_In in E. destruct (Hr _ _ _ E) as [_ N]. congruence.
  - clear E. assert (G : forall dd, incl dd (ng_cdata m) -> first_int_data dd = Ok (int_data dd)).
    { induction dd as [|[k [w|s w]] dd IH]; intros H; [reflexivity| |].
      - cbn. assert (Hin : In (k, CInts w) (ng_cdata m)) by (apply H; now left). pose proof (Hi _ _ Hin) as F. destruct w; [|reflexivity].
        inversion F as [E|]. symmetry in E. rewrite (He E) in Hin. destruct Hin.
      - cbn. assert (Hin : In (k, CReals s w) (ng_cdata m)) by (apply H; now left). destruct (Hr _ _ _ Hin) as [L _].
        destruct w as [|x w]; [|apply IH; intros y Hy; apply H; now right]. destruct (ng_cells m) eqn:E; [|discriminate]. rewrite (He eq_refl) in Hin. destruct Hin. }
    rewrite G by apply incl_refl. cbn [bind]. destruct (int_data (ng_cdata m)); reflexivity.
Qed.
Lemma ones_block b : Forall (fun i => (-2147483648 <= i < 2147483648)%Z) (map (fun _ : cell => 1%Z) (bdata b)).
Proof. apply Forall_map, Forall_forall. intros. lia. Qed.
Lemma indexed_facts : Forall good_pair (indexed m) /\ map fst (indexed m) = ng_cells m /\
  Forall2 as_index (indexed m) (match index_data m with Some v => map Some v | None => repeat None (length (ng_cells m)) end).
Proof.
  destruct Hg as (_ & _ & _ & Hb & Hr & Hi & He & _). unfold indexed. destruct (index_data m) as [v|] eqn:E.
  - destruct (index_In v E) as (k & Hin). pose proof (Hi _ _ Hin) as F. clear - F Hb.
    induction F as [|b l bs ls (L & R) _ IH]; [now repeat constructor|]. inversion Hb; subst. destruct (IH H2) as (I1 & I2 & I3). cbn [combine map]. split; [constructor; [|exact I1]; now split|].
    split; [now f_equal|]. constructor; [now left|exact I3].
  - clear - Hb. induction Hb as [|b bs Hb _ (I1 & I2 & I3)]; [now repeat constructor|]. cbn [combine map length repeat]. split.
    + constructor; [|exact I1]. split; [exact Hb|]. cbn [fst snd]. split; [now rewrite map_length|apply ones_block].
    + split; [now f_equal|]. constructor; [now right|exact I3].
Qed.
End Index.

(** ** Names of regions *)
Definition named (l : list (Z * string)) : zdict string := fold_left (fun d kv => zset (fst kv) (snd kv) d) l [].
Lemma zget_zset {V} k (v : V) d i : zget i (zset k v d) = if Z.eqb i k then Some v else zget i d.
Proof.
  induction d as [|[k' v'] d IH]; cbn; [reflexivity|]. destruct (Z.eqb_spec k k') as [->|]; cbn.
  - destruct (Z.eqb i k'); reflexivity.
  - rewrite IH. destruct (Z.eqb_spec i k'), (Z.eqb_spec i k); subst; try congruence; reflexivity.
Qed.
Lemma zset_keys {V} k (v : V) d i : In i (map fst (zset k v d)) <-> i = k \/ In i (map fst d).
Proof.
  induction d as [|[k' v'] d IH]; cbn; [intuition|]. destruct (Z.eqb_spec k k') as [->|]; cbn; [intuition|]. rewrite IH. intuition.
Qed.
Lemma named_snoc l x : named (l ++ [x]) = zset (fst x) (snd x) (named l).
Proof. unfold named. now rewrite fold_left_app. Qed.
Lemma named_get l i : zget i (named l) = last_name l i.
Proof.
  induction l as [|x l IH] using rev_ind; [reflexivity|]. rewrite named_snoc, zget_zset, IH. unfold last_name. rewrite rev_app_distr. cbn [rev app find].
  rewrite (Z.eqb_sym (fst x) i). destruct (Z.eqb i (fst x)); reflexivity.
Qed.
Lemma named_keys l i : In i (map fst (named l)) <-> In i (map fst l).
Proof.
  induction l as [|x l IH] using rev_ind; [reflexivity|]. rewrite named_snoc, zset_keys, IH, map_app, in_app_iff. cbn. intuition.
Qed.
Lemma max_right l : (forall x, In x l -> x <= fold_right Z.max 0 l)%Z /\ (fold_right Z.max 0 l = 0 \/ In (fold_right Z.max 0 l) l)%Z /\ (0 <= fold_right Z.max 0 l)%Z.
Proof.
  induction l as [|y l (I1 & I2 & I3)]; [cbn; intuition|]. cbn [fold_right]. split; [|split].
  - intros x [->|H]; [lia|]. specialize (I1 x H). lia.
  - destruct (Z.max_spec y (fold_right Z.max 0 l)%Z) as [[_ ->]|[_ ->]]; [destruct I2; [now left|right; now right]|right; now left].
  - lia.
Qed.
Lemma max_left {V} (l : list (Z * V)) k : (k <= fold_left (fun a kv => Z.max a (fst kv)) l k)%Z /\ (forall x, In x (map fst l) -> x <= fold_left (fun a kv => Z.max a (fst kv)) l k)%Z /\
  In (fold_left (fun a kv => Z.max a (fst kv)) l k) (k :: map fst l).
Proof.
  revert k; induction l as [|[y v] l IH]; intros k; [cbn; intuition|]. cbn [fold_left fst map]. destruct (IH (Z.max k y)) as (I1 & I2 & I3). split; [lia|]. split.
  - intros x [->|H]; [lia|]. now apply I2.
  - destruct I3 as [E|H]; [|right; now right]. rewrite <- E. destruct (Z.max_spec k y) as [[_ ->]|[_ ->]]; [right; now left|now left].
Qed.
Lemma named_max l k v rest : named l = (k, v) :: rest ->
  Z.to_nat (fold_left (fun a kv => Z.max a (fst kv)) rest k) = Z.to_nat (fold_right Z.max 0%Z (map fst l)).
Proof.
  intros E. destruct (max_right (map fst l)) as (R1 & R2 & R3). destruct (max_left rest k) as (L1 & L2 & L3).
  assert (K : forall i, In i (k :: map fst rest) <-> In i (map fst l)) by (intros i; rewrite <- (named_keys l i), E; reflexivity).
  apply K, R1 in L3. destruct R2 as [R2|R2]; [lia|]. apply K in R2. destruct R2 as [R2|R2]; [lia|]. apply L2 in R2. lia.
Qed.
Lemma named_nil l : named l = [] -> l = [].
Proof.
  intros E. destruct l as [|x l]; [reflexivity|]. assert (H : In (fst x) (map fst (named (x :: l)))) by (apply named_keys; now left). rewrite E in H. destruct H.
Qed.

Section Names.
Context {fl : floats} (m : ng_mesh fl) (d : nat).
Hypothesis Hg : netgen_good m d.
Lemma given_fold dim acc : fold_left (fun d kv => if Z.eqb (snd (snd kv)) dim then zset (fst (snd kv)) (fst kv) d else d) (ng_field m) acc
  = fold_left (fun d kv => zset (fst kv) (snd kv) d) (given_names m dim) acc.
Proof.
  unfold given_names. revert acc. induction (ng_field m) as [|[s [i dm]] l IH]; intros acc; [reflexivity|]. cbn [fold_left filter snd fst]. destruct (Z.eqb dm dim); cbn [map fold_left fst snd]; apply IH.
Qed.
Lemma made_indices dim : exists l, mapM (fun bi : block * option (list Z) => do d <- cellblock_dim (btype (fst bi));
    Ok (match snd bi with Some ix => if Z.eqb (Z.of_nat d) (Z.of_nat dim) then ix else [] | None => [] end))
      (combine (ng_cells m) (match index_data m with Some v => map Some v | None => repeat None (length (ng_cells m)) end)) = Ok l /\
  concat l = match index_data m with Some v => concat (map snd (with_dim dim (combine (ng_cells m) v))) | None => [] end.
Proof.
  destruct Hg as (_ & _ & _ & Hb & _). clear Hg. destruct (index_data m) as [v|].
  - revert v. induction Hb as [|b bs Hb _ IH]; intros v; [now exists []|]. destruct v as [|x v]; [now exists []|]. cbn [map combine mapM fst snd]. rewrite (block_dim b) by auto. cbn [bind].
    destruct (IH v) as (l & -> & El). cbn [bind]. eexists. split; [reflexivity|]. unfold with_dim. cbn [concat filter fst]. fold (with_dim dim (combine bs v)).
    destruct (Nat.eqb_spec (netgen_dim (btype b)) dim) as [->|N].
    + rewrite Z.eqb_refl. cbn [map snd concat]. now rewrite El.
    + destruct (Z.eqb_spec (Z.of_nat (netgen_dim (btype b))) (Z.of_nat dim)); [lia|]. exact El.
  - induction Hb as [|b bs Hb _ (l & E & El)]; [now exists []|]. cbn [length repeat combine mapM fst snd]. rewrite (block_dim b) by auto. cbn [bind]. rewrite E. cbn [bind]. eexists. split; [reflexivity|]. exact El.
Qed.
Lemma names_written c index : c <= d -> ng_index m = Ok index -> ng_names m index (Z.of_nat d) (Z.of_nat c) = Ok (named (region_names m (d - c) c)).
Proof.
  intros Hc Hi. rewrite (index_written m d Hg) in Hi. assert (Ei : index = match index_data m with Some v => map Some v | None => repeat None (length (ng_cells m)) end) by congruence. clear Hi.
  unfold ng_names. replace (Z.of_nat d - Z.of_nat c)%Z with (Z.of_nat (d - c)) by lia. rewrite given_fold. fold (named (given_names m (Z.of_nat (d - c)))). unfold region_names.
  destruct (named (given_names m (Z.of_nat (d - c)))) as [|x l] eqn:E.
  - apply named_nil in E. rewrite E. subst index. destruct (made_indices (d - c)) as (l & -> & El). cbn [bind]. rewrite El. clear El. f_equal. unfold made_names, named.
    destruct (index_data m) as [v|]; [|reflexivity]. generalize (@nil (Z * string)). induction (concat (map snd (with_dim (d - c) (combine (ng_cells m) v)))) as [|i is IH]; intros acc; [reflexivity|].
    cbn [map fold_left fst snd]. rewrite IH. now rewrite str_of_nat_Z.
  - destruct (given_names m (Z.of_nat (d - c))) eqn:Eg; [discriminate|]. now rewrite E.
Qed.
Lemma region_words dim c : Forall (fun x => word (snd x) = true) (region_names m dim c).
Proof.
  destruct Hg as (_ & _ & _ & _ & _ & _ & _ & Hf & _). unfold region_names. destruct (given_names m (Z.of_nat dim)) eqn:E.
  - unfold made_names. destruct (index_data m); [|constructor]. apply Forall_map, Forall_forall. intros i _. cbn [snd append word]. cbn [no_space]. rewrite !no_space_app. 
    pose proof (word_no_space _ (word_str_of_nat c)) as [-> _]. pose proof (word_no_space _ (word_str_of_Z i)) as [H _]. cbn [append no_space]. now rewrite H.
  - rewrite <- E. unfold given_names. apply Forall_map. apply Forall_forall. intros kv H. apply filter_In in H. destruct H as [H _]. cbn [snd]. exact (proj1 (Forall_forall _ _) Hf kv H).
Qed.
End Names.
Lemma last_name_word l i s : Forall (fun x : Z * string => word (snd x) = true) l -> last_name l i = Some s -> word s = true.
Proof.
  intros H E. unfold last_name in E. destruct (find _ (rev l)) as [x|] eqn:F; [|discriminate]. injection E as <-. apply find_some in F. destruct F as [F _]. apply in_rev in F. exact (proj1 (Forall_forall _ _) H x F).
Qed.
Lemma read_names l edim is fd rest : Forall (fun x : Z * string => word (snd x) = true) l ->
  read_ng_names edim (length is) fd (map (fun i => (str_of_nat i ++ " " ++ match zget (Z.of_nat i) (named l) with Some s => s | None => "" end)%string) is ++ rest)
  = Ok (fold_left (fun acc kv => dset (fst kv) (snd kv) acc)
          (flat_map (fun i => match last_name l (Z.of_nat i) with Some s => [(s, (Z.of_nat i, edim))] | None => [] end) is) fd, rest).
Proof.
  intros Hw. revert fd. induction is as [|i is IH]; intros fd; [reflexivity|]. cbn [length map app read_ng_names flat_map line1 hd tl]. unfold line1. cbn [hd].
  change (" " ++ ?x)%string with (String " " x). rewrite (split_ws_word_space (str_of_nat i)) by (apply word_str_of_nat || reflexivity). rewrite named_get.
  destruct (last_name l (Z.of_nat i)) as [s|] eqn:E.
  - rewrite split_ws_word_end by (eapply last_name_word; eauto). rewrite str_of_nat_Z, parse_Z_str_of_Z. cbn [of_option bind]. rewrite IH. reflexivity.
  - apply IH.
Qed.
Lemma chunks3 (ids : list (list Z)) : Forall (fun r => length r = 3) ids -> chunks 3 (concat ids) = ids.
Proof. intros H. apply chunk_rows; [lia|exact H]. Qed.

(** ** Sections of the file *)
Section Sections.
Context {fl : floats}.
Hypothesis Hfl : netgen_floats fl.

Definition steps (n : nat) (st : ng_state (fl := fl)) (ls : list string) (st' : ng_state (fl := fl)) (ls' : list string) : Prop :=
  forall f, ng_loop (n + f) st ls = ng_loop f st' ls'.
Lemma steps_trans n k st ls st' ls' st'' ls'' : steps n st ls st' ls' -> steps k st' ls' st'' ls'' -> steps (n + k) st ls st'' ls''.
Proof. intros H1 H2 f. rewrite <- Nat.add_assoc, H1. apply H2. Qed.
Lemma steps_0 st ls : steps 0 st ls st ls.
Proof. intros f. reflexivity. Qed.
Lemma one_step st ls line rest st' ls' : ng_next ls = Some (line, rest) -> String.eqb line "endmesh" = false -> ng_read_section st line rest = Ok (st', ls') ->
  steps 1 st ls st' ls'.
Proof. intros H1 H2 H3 f. change (1 + f) with (S f). cbn [ng_loop]. now rewrite H1, H2, H3. Qed.

Ltac keys := repeat match goal with |- context [String.eqb ?a ?b] => let v := eval vm_compute in (String.eqb a b) in change (String.eqb a b) with v; cbv iota end.
Ltac kinds := repeat match goal with
  | |- context [ng_kind ?a] => let v := eval vm_compute in (ng_kind a) in change (ng_kind a) with v; cbv iota
  | |- context [split_ws ?a] => let v := eval vm_compute in (split_ws a) in change (split_ws a) with v; cbv iota
  | |- context [dget ?a netgen_codims] => let v := eval vm_compute in (dget a netgen_codims) in change (dget a netgen_codims) with v; cbv iota end.

Lemma sec_dimension (st : ng_state (fl := fl)) d rest : ng_read_section st "dimension" (str_of_nat d :: rest) =
  Ok (NgState (Some (Z.of_nat d)) (gs_points st) (gs_cells st) (gs_field st) (gs_ids st) (gs_types st) (gs_two st), rest).
Proof. destruct st. unfold ng_read_section. keys. unfold line1. cbn [hd tl]. rewrite int_line_nat. reflexivity. Qed.
Lemma sec_geomtype (st : ng_state (fl := fl)) rest : ng_read_section st "geomtype" ("0" :: rest) = Ok (st, rest).
Proof. destruct st. reflexivity. Qed.
Definition title (dim : nat) : string := match dim with 0 => "pointelements" | 1 => "edgesegmentsgi2" | 2 => "surfaceelements" | _ => "volumeelements" end.
Lemma sec_cells (st : ng_state (fl := fl)) dim xs rest : dim <= 3 -> gs_two st = false -> Forall (fun x => ok_cell x /\ netgen_dim (fst (fst x)) = dim) xs ->
  ng_read_section st (title dim) (str_of_nat (length xs) :: map cell_line_of xs ++ rest) =
  Ok (NgState (gs_dim st) (gs_points st) (gs_cells st ++ xs) (gs_field st) (gs_ids st) (gs_types st) false, rest).
Proof.
  intros Hd Ht H. destruct st as [dm pts cs fd ids types two]. cbn [gs_two gs_dim gs_points gs_cells gs_field gs_ids gs_types] in *. subst two. unfold ng_read_section.
  assert (R := read_cells_ok dim xs rest H). unfold line1. cbn [hd tl]. rewrite int_line_nat. cbn [bind]. rewrite Nat2Z.id.
  destruct dim as [|[|[|[|dim]]]]; try lia; cbn [title kind_of fst snd] in *; keys; kinds; rewrite R; reflexivity.
Qed.
Definition point_line (d : nat) (p : list fl) : string := row_line (map ffmt (p ++ repeat (@fzero fl) (3 - d))).
Definition array_of (pts : list (list fl)) : ng_array fl := match pts with [p] => Flat p | _ => Rows pts end.
Lemma gen_points d (pts : list (list fl)) rest : 1 <= d <= 3 -> Forall (fun p => length p = d) pts ->
  gen_rows (length pts) (map (point_line d) pts ++ rest) = (map (fun p => map ffmt (p ++ repeat (@fzero fl) (3 - d))) pts, rest).
Proof.
  intros Hd. destruct Hfl as [Hok Hh]. induction 1 as [|p pts Hp _ IH]; [reflexivity|]. cbn [length map app gen_rows]. unfold point_line at 1. rewrite next_row_words.
  - rewrite IH. reflexivity.
  - destruct p; cbn in *; [lia|discriminate].
  - now apply words_floats.
  - apply Forall_map, Forall_forall. intros x _. apply Hh.
Qed.
Lemma sec_points (st : ng_state (fl := fl)) d (pts : list (list fl)) rest : 1 <= d <= 3 -> gs_dim st = Some (Z.of_nat d) -> pts <> [] -> Forall (fun p => length p = d) pts ->
  ng_read_section st "points" (str_of_nat (length pts) :: map (point_line d) pts ++ rest) =
  if Nat.eqb (length pts) 1 && negb (Nat.eqb d 3) then Err IndexError
  else Ok (NgState (gs_dim st) (array_of pts) (gs_cells st) (gs_field st) (gs_ids st) (gs_types st) (gs_two st), rest).
Proof.
  intros Hd Hdim Hne Hp. destruct st as [dm pts0 cs fd ids types two]. cbn [gs_two gs_dim gs_points gs_cells gs_field gs_ids gs_types] in *. subst dm. unfold ng_read_section. keys.
  unfold line1. cbn [hd tl]. rewrite int_line_nat. cbn [bind].
  assert (Hpos : (0 <? Z.of_nat (length pts))%Z = true) by (destruct pts; [congruence|]; apply Z.ltb_lt; cbn [length]; lia). rewrite Hpos. unfold read_ng_points. rewrite Hpos, Nat2Z.id, gen_points by auto. cbn [fst snd].
  assert (Hl : Forall (fun p : list fl => length p = 3) (map (fun p => p ++ repeat (@fzero fl) (3 - d)) pts)).
  { apply Forall_map. eapply Forall_impl; [|exact Hp]. intros p L. rewrite app_length, repeat_length, L. lia. }
  assert (Ev : even_rows (map (fun p => map ffmt (p ++ repeat (@fzero fl) (3 - d))) pts) = true).
  { unfold even_rows. apply forallb_forall. intros r Hr. apply Nat.eqb_eq.
    assert (A : forall r, In r (map (fun p => map ffmt (p ++ repeat (@fzero fl) (3 - d))) pts) -> length r = 3).
    { intros r' H. apply in_map_iff in H as (p & <- & Hin). rewrite map_length. apply (proj1 (Forall_forall _ _) Hl). now apply (in_map (fun p => p ++ repeat (@fzero fl) (3 - d))). }
    rewrite (A r Hr). destruct pts as [|p pts]; [congruence|]. symmetry. apply A. now left. }
  rewrite Ev. assert (Pf : mapM parse_floats (map (fun p => map ffmt (p ++ repeat (@fzero fl) (3 - d))) pts) = Ok (map (fun p => p ++ repeat (@fzero fl) (3 - d)) pts)).
  { clear - Hfl. destruct Hfl as [Hok _]. induction pts as [|p pts IH]; [reflexivity|]. cbn [map mapM]. rewrite parse_floats_ok by exact Hok. cbn [bind]. now rewrite IH. }
  rewrite Pf. cbn [bind of_option].
  assert (Sq : squeeze (map (fun p => p ++ repeat (@fzero fl) (3 - d)) pts) = array_of (map (fun p => p ++ repeat (@fzero fl) (3 - d)) pts)).
  { clear - Hl Hne. destruct pts as [|p [|q pts]]; [|reflexivity|].
    - congruence.
    - cbn [map squeeze array_of] in *. apply Forall_inv in Hl. cbv beta in Hl. now rewrite Hl. }
  destruct (Z.eqb_spec (Z.of_nat d) 3) as [E|E].
  - assert (d = 3) as -> by lia. rewrite Nat.eqb_refl, andb_false_r. rewrite Sq. cbn [bind fst snd]. replace (map (fun p : list fl => p ++ repeat (@fzero fl) (3 - 3)) pts) with pts; [reflexivity|]. cbn [Nat.sub repeat]. symmetry. apply map_id_in. intros p _. apply app_nil_r.
  - destruct (Nat.eqb_spec d 3); [lia|]. rewrite andb_true_r, Sq. destruct pts as [|p [|q pts]]; [congruence|reflexivity|]. cbn [array_of map length Nat.eqb bind fst snd]. do 3 f_equal. 
    assert (Hs : forall p : list fl, length p = d -> slice_to (Z.of_nat d) (p ++ repeat (@fzero fl) (3 - d)) = p).
    { intros p' L. unfold slice_to. destruct (Z.ltb_spec (Z.of_nat d) 0); [lia|]. rewrite Nat2Z.id, firstn_app, <- L, Nat.sub_diag, firstn_all. apply app_nil_r. }
    inversion Hp as [|? ? L1 Hp1]; subst. inversion Hp1 as [|? ? L2 Hp2]; subst. rewrite !Hs by auto. do 3 f_equal. rewrite map_map. apply map_id_in. intros p' H. apply Hs. exact (proj1 (Forall_forall _ _) Hp2 p' H).
Qed.
Lemma sec_names (st : ng_state (fl := fl)) c d l rest : c <= 3 -> gs_dim st = Some (Z.of_nat d) -> c <= d -> Forall (fun x : Z * string => word (snd x) = true) l ->
  exists n, n <= 1 /\ steps n st (ng_codim_lines (fst (nth c netgen_codims ("", 0%Z))) (named l) ++ rest)
    (NgState (gs_dim st) (gs_points st) (gs_cells st)
      (fold_left (fun acc kv => dset (fst kv) (snd kv) acc)
          (flat_map (fun i => match last_name l (Z.of_nat i) with Some s => [(s, (Z.of_nat i, Z.of_nat (d - c)))] | None => [] end) (seq 1 (Z.to_nat (fold_right Z.max 0%Z (map fst l))))) (gs_field st))
      (gs_ids st) (gs_types st) (gs_two st)) rest.
Proof.
  intros Hc Hd Hcd Hw. destruct (named l) as [|[k s] rest0] eqn:E.
  - apply named_nil in E. subst l. exists 0. split; [lia|]. cbn. destruct st. apply steps_0.
  - exists 1. split; [lia|]. assert (M := named_max l k s rest0 E). destruct st as [dm pts cs fd ids types two]. cbn [gs_two gs_dim gs_points gs_cells gs_field gs_ids gs_types] in *. subst dm.
    unfold ng_codim_lines. set (ncd := fold_left _ rest0 k) in *. cbn [app].
    eapply (one_step _ _ (fst (nth c netgen_codims ("", 0%Z)))).
    + destruct c as [|[|[|[|c]]]]; try lia; reflexivity.
    + destruct c as [|[|[|[|c]]]]; try lia; reflexivity.
    + unfold ng_read_section. rewrite <- E, M.
      set (lines := map (fun i => (str_of_nat i ++ _)%string) _). assert (R := read_names l (Z.of_nat (d - c)) (seq 1 (Z.to_nat (fold_right Z.max 0%Z (map fst l)))) fd rest Hw).
      rewrite seq_length in R.
      assert (X : (do d0 <- of_option UnboundLocalError (Some (Z.of_nat d)); do n <- int_line (line1 (str_of_Z ncd :: lines ++ rest));
          do r <- read_ng_names (d0 - Z.of_nat c) (Z.to_nat n) fd (tl (str_of_Z ncd :: lines ++ rest)); Ok (@NgState fl (Some (Z.of_nat d)) pts cs (fst r) ids types two, snd r))
        = Ok (NgState (Some (Z.of_nat d)) pts cs (fold_left (fun acc kv => dset (fst kv) (snd kv) acc)
          (flat_map (fun i => match last_name l (Z.of_nat i) with Some s => [(s, (Z.of_nat i, Z.of_nat (d - c)))] | None => [] end) (seq 1 (Z.to_nat (fold_right Z.max 0%Z (map fst l))))) fd) ids types two, rest)).
      { cbn [of_option bind]. unfold line1. cbn [hd tl]. rewrite int_line_str. cbn [bind]. rewrite M. replace (Z.of_nat d - Z.of_nat c)%Z with (Z.of_nat (d - c)) by lia.
        unfold lines. rewrite R. reflexivity. }
      destruct c as [|[|[|[|c]]]]; try lia; cbn [nth netgen_codims fst]; keys; kinds; exact X.
Qed.
End Sections.

Section File.
Context {fl : floats}.
Hypothesis Hfl : netgen_floats fl.
Notation state := (ng_state (fl := fl)).

Lemma gen_ints (rows : list (list Z)) rest : Forall (fun r => r <> []) rows -> gen_rows (length rows) (map (fun r => row_line (map str_of_Z r)) rows ++ rest) = (map (map str_of_Z) rows, rest).
Proof.
  induction 1 as [|r rows Hr _ IH]; [reflexivity|]. cbn [length map app gen_rows]. rewrite next_row_words; [now rewrite IH|now destruct r|apply words_ints|].
  apply Forall_map, Forall_forall. intros x _. apply char_in_str_of_Z; [reflexivity|discriminate].
Qed.
Lemma ints_parsed rows : mapM parse_ints (map (map str_of_Z) rows) = Ok rows.
Proof. induction rows as [|r rows IH]; [reflexivity|]. cbn [map mapM]. rewrite parse_ints_ok. cbn [bind]. now rewrite IH. Qed.
Lemma rect_length {A} w (rows : list (list A)) : Forall (fun r => length r = w) rows -> length (concat rows) = length rows * w.
Proof. induction 1 as [|r rows Hr _ IH]; [reflexivity|]. cbn [concat length]. rewrite app_length, Hr, IH. lia. Qed.
Lemma read_ints_ok w (rows : list (list Z)) n w' rest : 0 < w -> Forall (fun r => length r = w) rows -> length (concat rows) = n * w' ->
  read_ng_ints (length rows) w' n (map (fun r => row_line (map str_of_Z r)) rows ++ rest) = Ok (concat rows, rest).
Proof.
  intros Hw Hr Hn. unfold read_ng_ints. rewrite gen_ints by (eapply Forall_impl; [|exact Hr]; intros [|] L; cbn in L; [lia|discriminate]). cbn [fst snd].
  assert (Ev : even_rows (map (map str_of_Z) rows) = true).
  { unfold even_rows. apply forallb_forall. intros r Hin. apply Nat.eqb_eq.
    assert (A : forall r, In r (map (map str_of_Z) rows) -> length r = w).
    { intros r' H. apply in_map_iff in H as (p & <- & Hp). rewrite map_length. exact (proj1 (Forall_forall _ _) Hr p Hp). }
    rewrite (A r Hin). destruct rows as [|p rows]; [destruct Hin|]. symmetry. apply A. now left. }
  rewrite Ev, ints_parsed. cbn [bind]. now rewrite Hn, Nat.eqb_refl.
Qed.
Lemma skip_blank n (st : state) ls st' rest : steps n st ls st' ("" :: rest) -> steps n st ls st' rest.
Proof. intros H f. rewrite H. destruct f; reflexivity. Qed.

Definition ids_of (i : option (list (list Z) * list Z)) : option (list (list Z)) := match i with Some (r :: ids, _) => Some (r :: ids) | _ => None end.
Definition types_of (i : option (list (list Z) * list Z)) : option (list Z) := match i with Some (_, r :: ids) => Some (r :: ids) | _ => None end.
Definition info_lines (i : option (list (list Z) * list Z)) : list string :=
  match i with
  | None => []
  | Some (ids, types) => ["" ; "identifications"; str_of_nat (length ids)] ++ map (fun r => row_line (map str_of_Z r)) ids ++
                         [""; "identificationtypes"; str_of_nat (length types); row_line (map str_of_Z types)]
  end.
Lemma info_parts i : option_map (fun x => (x, types_of i)) (ids_of i) = info_back i.
Proof. destruct i as [[[|r ids] [|t types]]|]; reflexivity. Qed.
Lemma sec_info (st : state) i rest : gs_ids st = None -> gs_types st = None -> (forall ids types, i = Some (ids, types) -> Forall (fun r => length r = 3) ids) ->
  exists n, n <= 2 /\ steps n st (info_lines i ++ rest) (NgState (gs_dim st) (gs_points st) (gs_cells st) (gs_field st) (ids_of i) (types_of i) (gs_two st)) rest.
Proof.
  intros H1 H2 Hi. destruct st as [dm pts cs fd ids0 types0 two]. cbn [gs_two gs_dim gs_points gs_cells gs_field gs_ids gs_types] in *. subst ids0 types0.
  destruct i as [[ids types]|]; [|exists 0; split; [lia|apply steps_0]]. specialize (Hi ids types eq_refl). exists (1 + 1). split; [lia|]. unfold info_lines. rewrite <- !app_assoc. cbn [app].
  set (tl_ := "" :: "identificationtypes" :: str_of_nat (length types) :: row_line (map str_of_Z types) :: rest).
  eapply (steps_trans _ _ _ _ (NgState dm pts cs fd (ids_of (Some (ids, types))) None two) tl_).
  - eapply (one_step _ _ "identifications"); [reflexivity|reflexivity|].
    assert (X : (do n <- int_line (line1 (str_of_nat (length ids) :: map (fun r => row_line (map str_of_Z r)) ids ++ tl_));
      if (0 <? n)%Z then do r <- read_ng_ints (Z.to_nat n) 3 (Z.to_nat n) (tl (str_of_nat (length ids) :: map (fun r => row_line (map str_of_Z r)) ids ++ tl_)); Ok (@NgState fl dm pts cs fd (Some (chunks 3 (fst r))) None two, snd r)
      else Ok (NgState dm pts cs fd None None two, tl (str_of_nat (length ids) :: map (fun r => row_line (map str_of_Z r)) ids ++ tl_)))
      = Ok (NgState dm pts cs fd (ids_of (Some (ids, types))) None two, tl_)).
    { unfold line1. cbn [hd tl]. rewrite int_line_nat. cbn [bind]. destruct ids as [|r ids]; [reflexivity|].
      destruct (Z.ltb_spec 0 (Z.of_nat (length (r :: ids)))) as [_|N]; [|cbn [length] in N; lia]. rewrite Nat2Z.id, (read_ints_ok 3); [|lia|exact Hi|].
      - cbn [bind fst snd]. rewrite chunks3 by exact Hi. reflexivity.
      - now apply rect_length. }
    exact X.
  - assert (B : steps 1 (NgState dm pts cs fd (ids_of (Some (ids, types))) None two) tl_
      (NgState dm pts cs fd (ids_of (Some (ids, types))) (types_of (Some (ids, types))) two) (match types with [] => "" :: rest | _ => rest end)).
    { eapply (one_step _ _ "identificationtypes"); [reflexivity|reflexivity|].
      assert (X : (do n <- int_line (line1 (str_of_nat (length types) :: row_line (map str_of_Z types) :: rest));
        if (0 <? n)%Z then do r <- read_ng_ints 1 1 (Z.to_nat n) (row_line (map str_of_Z types) :: rest); Ok (@NgState fl dm pts cs fd (ids_of (Some (ids, types))) (Some (fst r)) two, snd r)
        else Ok (NgState dm pts cs fd (ids_of (Some (ids, types))) None two, row_line (map str_of_Z types) :: rest))
        = Ok (NgState dm pts cs fd (ids_of (Some (ids, types))) (types_of (Some (ids, types))) two, match types with [] => "" :: rest | _ => rest end)).
      { unfold line1. cbn [hd]. rewrite int_line_nat. cbn [bind]. destruct types as [|t types]; [reflexivity|].
        destruct (Z.ltb_spec 0 (Z.of_nat (length (t :: types)))) as [_|N]; [|cbn [length] in N; lia]. rewrite Nat2Z.id.
        assert (R := read_ints_ok (length (t :: types)) [t :: types] (length (t :: types)) 1 rest). cbn [map app] in R. change (length [t :: types]) with 1 in R. cbn [map]. rewrite R.
        - cbn [concat]. rewrite app_nil_r. reflexivity.
        - cbn [length]. lia.
        - constructor; [reflexivity|constructor].
        - cbn [concat]. rewrite app_nil_r. lia. }
      exact X. }
    destruct types; [apply skip_blank|]; exact B.
Qed.

Lemma sec_all_names (st : state) (m : ng_mesh fl) d cs rest : netgen_good m d -> gs_dim st = Some (Z.of_nat d) -> Forall (fun c => c <= d) cs ->
  exists n, n <= length cs /\ steps n st (flat_map (fun cx => ng_codim_lines (fst (nth (fst cx) netgen_codims ("", 0%Z))) (snd cx)) (map (fun c => (c, named (region_names m (d - c) c))) cs) ++ rest)
    (NgState (gs_dim st) (gs_points st) (gs_cells st)
      (fold_left (fun acc kv => dset (fst kv) (snd kv) acc) (flat_map (fun c => regions_back m (d - c) c) cs) (gs_field st)) (gs_ids st) (gs_types st) (gs_two st)) rest.
Proof.
  intros Hg Hd Hc. assert (Hd3 : d <= 3) by (destruct Hg; lia). revert st Hd. induction Hc as [|c cs Hc _ IH]; intros st Hd.
  - exists 0. split; [cbn; lia|]. cbn. destruct st. apply steps_0.
  - cbn [map flat_map]. rewrite <- app_assoc, fold_left_app.
    destruct (sec_names st c d (region_names m (d - c) c) (flat_map (fun cx => ng_codim_lines (fst (nth (fst cx) netgen_codims ("", 0%Z))) (snd cx)) (map (fun c => (c, named (region_names m (d - c) c))) cs) ++ rest)) as (n1 & L1 & S1);
      [lia|exact Hd|exact Hc|apply (region_words m d Hg)|].
    cbn [fst snd]. unfold regions_back at 1.
    match type of S1 with steps _ _ _ ?s _ => destruct (IH s Hd) as (n2 & L2 & S2) end.
    exists (n1 + n2). split; [cbn [length]; lia|]. eapply steps_trans; [exact S1|]. exact S2.
Qed.

Lemma next_comment s rest : ng_next (String "#" s :: rest) = ng_next rest.
Proof.
  cbn [ng_next]. unfold strip. change (lstrip (String "#" s)) with (String "#" s). cbn [rstrip]. destruct (rstrip s); reflexivity.
Qed.
Lemma mapM_names (m : ng_mesh fl) d index cs : netgen_good m d -> ng_index m = Ok index -> Forall (fun c => c <= d) cs ->
  mapM (fun c => do x <- ng_names m index (Z.of_nat d) (Z.of_nat c); Ok (c, x)) cs = Ok (map (fun c => (c, named (region_names m (d - c) c))) cs).
Proof.
  intros Hg Hi. induction 1 as [|c cs Hc _ IH]; [reflexivity|]. cbn [mapM map]. rewrite (names_written m d Hg) by auto. cbn [bind]. now rewrite IH.
Qed.
Lemma dims_cells l : flat_map tci (with_dim 2 l) ++ flat_map tci (with_dim 3 l) ++ flat_map tci (with_dim 1 l) ++ flat_map tci (with_dim 0 l) = flat_map tci (by_dimension l).
Proof. unfold by_dimension. now rewrite !flat_map_app. Qed.
Lemma by_dim_good l : Forall good_pair l -> Forall good_pair (by_dimension l).
Proof.
  intros H. unfold by_dimension. rewrite !Forall_app. repeat split; unfold with_dim; apply Forall_forall; intros x Hx; apply filter_In in Hx; exact (proj1 (Forall_forall _ _) H x (proj1 Hx)).
Qed.

Lemma netgen_ok v (m : ng_mesh fl) d : netgen_good m d -> exists ls, write_netgen v m = Ok ls /\
  let cs := by_dimension (indexed m) in let bs := regroup (all_cells (map fst cs)) in
  read_netgen (fl := fl) ls = if Nat.eqb (length (ng_points m)) 1 && negb (Nat.eqb d 3) then Err IndexError
    else Ok (NgOut (array_of (ng_points m)) bs (data_for bs (concat (map snd cs))) (field_back m d) (info_back (ng_info m))).
Proof.
  intros Hg. assert (Hg' := Hg). destruct Hg' as (Hd & Hne & Hp & Hb & _ & _ & _ & _ & Hinfo).
  destruct (indexed_facts m d Hg) as (Gp & Ec & Ai). assert (Ei := index_written m d Hg). set (index := match index_data m with Some v => map Some v | None => repeat None (length (ng_cells m)) end) in *.
  assert (Eh : length (hd [] (ng_points m)) = d) by (destruct (ng_points m); [congruence|]; now apply Forall_inv in Hp).
  unfold write_netgen. rewrite Eh, Ei. cbn [bind]. rewrite <- Ec. rewrite !section_count, !(section_lines _ _ _ Gp Ai) by exact Gp. cbn [bind].
  destruct (Nat.ltb_spec 3 d); [lia|]. rewrite (mapM_names m d index _ Hg Ei) by (apply Forall_forall; intros c Hc; apply in_seq in Hc; lia). cbn [bind]. eexists. split; [reflexivity|].
  set (l := indexed m) in *. change (fun p : list fl => row_line (map ffmt (p ++ repeat (@fzero fl) (3 - d)))) with (point_line (fl := fl) d).
  change (match ng_info m with None => [] | Some (ids, types) => _ end) with (info_lines (ng_info m)).
  set (C2 := flat_map tci (with_dim 2 l)). set (C3 := flat_map tci (with_dim 3 l)). set (C1 := flat_map tci (with_dim 1 l)). set (C0 := flat_map tci (with_dim 0 l)).
  set (N := flat_map _ (map _ (seq 0 (S d)))). cbn [app]. cbv zeta. unfold read_netgen. change ("# Generated by meshio " ++ v)%string with (String "#" (" Generated by meshio " ++ v)). rewrite next_comment. cbn [ng_next]. change (strip "mesh3d") with "mesh3d"%string. cbv iota beta. change (String.eqb "mesh3d" "") with false. change (String.prefix "#" "mesh3d") with false. cbn [orb]. change (String.eqb "mesh3d" "mesh3d") with true. cbv iota.
  set (L0 := "" :: "dimension" :: _). set (dm := Some (Z.of_nat d)).
  set (st0 := NgState None (@Flat fl []) [] [] None None false).
  (* the sections before the points *)
  match goal with L0 := "" :: "dimension" :: _ :: "" :: "geomtype" :: "0" :: ?x |- _ => set (L2 := x) in * end.
  assert (S1 : steps (fl := fl) 2 st0 L0 (NgState dm (@Flat fl []) [] [] None None false) L2).
  { change 2 with (1 + 1). unfold L0. eapply steps_trans.
    - eapply (one_step _ _ "dimension"); [reflexivity|reflexivity|apply sec_dimension].
    - cbn [st0 gs_points gs_cells gs_field gs_ids gs_types gs_two]. eapply (one_step _ _ "geomtype"); [reflexivity|reflexivity|apply sec_geomtype]. }
  match goal with L2 := "" :: _ :: "surfaceelements" :: _ :: map _ _ ++ ?x |- _ => set (L3 := x) in * end.
  assert (S2 : steps (fl := fl) 1 (NgState dm (@Flat fl []) [] [] None None false) L2 (NgState dm (@Flat fl []) C2 [] None None false) L3).
  { eapply (one_step _ _ "surfaceelements"); [reflexivity|reflexivity|]. apply (sec_cells (NgState dm (@Flat fl []) [] [] None None false) 2 C2 L3); [lia|reflexivity|now apply section_cells]. }
  match goal with L3 := "" :: _ :: "volumeelements" :: _ :: map _ _ ++ ?x |- _ => set (L4 := x) in * end.
  assert (S3 : steps (fl := fl) 1 (NgState dm (@Flat fl []) C2 [] None None false) L3 (NgState dm (@Flat fl []) (C2 ++ C3) [] None None false) L4).
  { eapply (one_step _ _ "volumeelements"); [reflexivity|reflexivity|]. apply (sec_cells (NgState dm (@Flat fl []) C2 [] None None false) 3 C3 L4); [lia|reflexivity|now apply section_cells]. }
  match goal with L4 := "" :: _ :: "edgesegmentsgi2" :: _ :: map _ _ ++ ?x |- _ => set (L5 := x) in * end.
  assert (S4 : steps (fl := fl) 1 (NgState dm (@Flat fl []) (C2 ++ C3) [] None None false) L4 (NgState dm (@Flat fl []) ((C2 ++ C3) ++ C1) [] None None false) L5).
  { eapply (one_step _ _ "edgesegmentsgi2"); [reflexivity|reflexivity|]. apply (sec_cells (NgState dm (@Flat fl []) (C2 ++ C3) [] None None false) 1 C1 L5); [lia|reflexivity|now apply section_cells]. }
  assert (S5 := steps_trans _ _ _ _ _ _ _ _ S1 (steps_trans _ _ _ _ _ _ _ _ S2 (steps_trans _ _ _ _ _ _ _ _ S3 S4))).
  match goal with L5 := "" :: _ :: "points" :: _ :: map _ _ ++ ?x |- _ => set (L6 := x) in * end.
  assert (Len : 27 <= length L0).
  { unfold L0, L2, L3, L4, L5, L6. repeat (cbn [length]; rewrite ?app_length). lia. }
  assert (P := sec_points Hfl (NgState dm (@Flat fl []) ((C2 ++ C3) ++ C1) [] None None false) d (ng_points m) L6 Hd eq_refl Hne Hp).
  assert (Enx : ng_next L5 = Some ("points"%string, str_of_nat (length (ng_points m)) :: map (point_line (fl := fl) d) (ng_points m) ++ L6)) by reflexivity.
  destruct (Nat.eqb (length (ng_points m)) 1 && negb (Nat.eqb d 3)) eqn:E1.
  - replace (S (length L0)) with ((2 + (1 + (1 + 1))) + S (length L0 - 5)) by lia. rewrite S5. cbn [ng_loop]. rewrite Enx. change (String.eqb "points" "endmesh") with false. cbv iota. rewrite P. reflexivity.
  - cbn [gs_points gs_cells gs_field gs_ids gs_types gs_two gs_dim] in P. set (pts := array_of (ng_points m)) in *.
    assert (S6 : steps (fl := fl) 1 (NgState dm (@Flat fl []) ((C2 ++ C3) ++ C1) [] None None false) L5 (NgState dm pts ((C2 ++ C3) ++ C1) [] None None false) L6) by (eapply (one_step _ _ "points"); [exact Enx|reflexivity|exact P]).
    match goal with L6 := "" :: _ :: "pointelements" :: _ :: map _ _ ++ ?x |- _ => set (L7 := x) in * end.
    assert (S7 : steps (fl := fl) 1 (NgState dm pts ((C2 ++ C3) ++ C1) [] None None false) L6 (NgState dm pts (((C2 ++ C3) ++ C1) ++ C0) [] None None false) L7).
    { eapply (one_step _ _ "pointelements"); [reflexivity|reflexivity|]. apply (sec_cells (NgState dm pts ((C2 ++ C3) ++ C1) [] None None false) 0 C0 L7); [lia|reflexivity|now apply section_cells]. }
    assert (Ecs : ((C2 ++ C3) ++ C1) ++ C0 = flat_map tci (by_dimension l)) by (rewrite <- dims_cells, <- !app_assoc; reflexivity). rewrite Ecs in S7.
    destruct (sec_info (NgState dm pts (flat_map tci (by_dimension l)) [] None None false) (ng_info m) (N ++ [""; "endmesh"%string]) eq_refl eq_refl Hinfo) as (n8 & B8 & S8). cbn [gs_points gs_cells gs_field gs_ids gs_types gs_two gs_dim] in S8.
    destruct (sec_all_names (NgState dm pts (flat_map tci (by_dimension l)) [] (ids_of (ng_info m)) (types_of (ng_info m)) false) m d (seq 0 (S d)) [""; "endmesh"%string] Hg eq_refl) as (n9 & B9 & S9); [apply Forall_forall; intros c Hc; apply in_seq in Hc; lia|].
    cbn [gs_points gs_cells gs_field gs_ids gs_types gs_two gs_dim] in S9. fold (field_back m d) in S9. rewrite seq_length in B9.
    assert (T := steps_trans _ _ _ _ _ _ _ _ S5 (steps_trans _ _ _ _ _ _ _ _ S6 (steps_trans _ _ _ _ _ _ _ _ S7 (steps_trans _ _ _ _ _ _ _ _ S8 S9)))).
    set (n := 2 + (1 + (1 + 1)) + (1 + (1 + (n8 + n9)))) in T. assert (Bn : n <= 13) by lia. replace (S (length L0)) with (n + S (length L0 - n)) by lia. rewrite T. cbn [ng_loop].
    change (ng_next ["" ; "endmesh"%string]) with (Some ("endmesh"%string, @nil string)). cbv iota. change (String.eqb "endmesh" "endmesh") with true. cbv iota. cbn [bind].
    rewrite (finish_ok pts _ _ _ _ (by_dimension l) dm) by now apply by_dim_good. rewrite info_parts. reflexivity.
Qed.
End File.
