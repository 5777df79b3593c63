(** Proofs about MSH 2.2 (C23, C26). *)
From Verif.Lib Require Import Base Facts Facts2 Text TextFacts Lines LinesFacts Runs Perm BytesFacts.
From Verif.Model Require Import Core Gmsh Gmsh22.
From Verif.Spec Require Import Core Blocks Gmsh.
From Verif.Proofs Require Import Core CoreMisc Blocks VtuPoly Gmsh.

(** ** Tables *)
Lemma gmsh_codes t code : dget t meshio_to_gmsh_type = Some code -> zget code gmsh_to_meshio_type = Some t.
Proof.
  intros H. apply dget_In in H.
  assert (C : forallb (fun kv => match zget (snd kv) gmsh_to_meshio_type with
                                 | Some t => String.eqb t (fst kv) | None => false end) meshio_to_gmsh_type = true)
    by now vm_compute.
  rewrite forallb_forall in C. specialize (C _ H). cbn [fst snd] in C.
  destruct (zget code gmsh_to_meshio_type) as [u|]; [|discriminate]. apply String.eqb_eq in C. now subst.
Qed.

Lemma ordering_widths t p : dget t meshio_ordering = Some p -> dget t num_nodes_per_cell = Some (length p).
Proof.
  intros H. apply dget_In in H.
  assert (C : forallb (fun kv => match dget (fst kv) num_nodes_per_cell with
                                 | Some n => Nat.eqb n (length (snd kv)) | None => false end) meshio_ordering = true)
    by now vm_compute.
  rewrite forallb_forall in C. specialize (C _ H). cbn [fst snd] in C.
  destruct (dget t num_nodes_per_cell) as [u|]; [|discriminate]. apply Nat.eqb_eq in C. now subst.
Qed.
Lemma ordering_widths' t p : dget t gmsh_ordering = Some p -> dget t num_nodes_per_cell = Some (length p).
Proof.
  intros H. apply dget_In in H.
  assert (C : forallb (fun kv => match dget (fst kv) num_nodes_per_cell with
                                 | Some n => Nat.eqb n (length (snd kv)) | None => false end) gmsh_ordering = true)
    by now vm_compute.
  rewrite forallb_forall in C. specialize (C _ H). cbn [fst snd] in C.
  destruct (dget t num_nodes_per_cell) as [u|]; [|discriminate]. apply Nat.eqb_eq in C. now subst.
Qed.

(** ** Element lines *)
Lemma last_n_app {A} (a b : list A) : last_n (length b) (a ++ b) = b.
Proof.
  unfold last_n. rewrite app_length. replace (length a + length b - length b) with (length a) by lia.
  rewrite skipn_app, skipn_all, Nat.sub_diag. reflexivity.
Qed.

Lemma read_element_line tags e : element_ok tags e ->
  read_element (element_line e) = Ok (e_type e, e_nodes e, e_tags e).
Proof.
  intros ((code & Hc) & Hn & _). unfold read_element, element_line, element_numbers. rewrite Hc.
  unfold row_line. rewrite split_ws_join by apply words_ints. rewrite parse_ints_ok.
  cbn [bind nth_error of_option]. rewrite (gmsh_codes _ _ Hc). cbn [bind of_option]. rewrite Hn.
  cbn [bind of_option]. rewrite Nat2Z.id.
  change (e_id e :: code :: Z.of_nat (length (e_tags e)) :: e_tags e ++ e_nodes e)
    with ([e_id e; code; Z.of_nat (length (e_tags e))] ++ e_tags e ++ e_nodes e).
  rewrite app_assoc, last_n_app. rewrite <- app_assoc.
  unfold slice. replace (3 + length (e_tags e) - 3) with (length (e_tags e)) by lia.
  cbn [app skipn]. rewrite firstn_app, firstn_all, Nat.sub_diag. cbn [firstn]. now rewrite app_nil_r.
Qed.

(** ** Grouping by type *)
Lemma group_types_cells l : all_cells (group_types l) = l.
Proof.
  induction l as [|[t c] l IH]; [reflexivity|]. cbn [group_types].
  destruct (group_types l) as [|[t' cs] bs]; cbn in *; [now rewrite IH|].
  destruct (String.eqb_spec t t') as [->|Hne]; cbn; now rewrite IH.
Qed.

Lemma group_types_regroup w l : Forall (fun tc => length (snd tc) = w (fst tc)) l -> group_types l = regroup l.
Proof.
  induction 1 as [|[t c] l Hc Hl IH]; [reflexivity|]. cbn [group_types regroup]. rewrite IH.
  pose proof (regroup_grouped l) as G. pose proof (regroup_cells l) as E.
  destruct (regroup l) as [|[t' cs] bs]; [reflexivity|].
  destruct G as [(c' & cs' & Hb & _ & _) _]. cbn in Hb. subst cs.
  cbn in E. destruct l as [|[t2 c2] l]; [discriminate|]. injection E as -> -> _.
  inversion Hl as [|? ? Hc2 _]; subst. cbn [fst snd] in *.
  destruct (String.eqb_spec t t2) as [->|]; [|reflexivity]. now rewrite Hc, Hc2, Nat.eqb_refl.
Qed.

Lemma group_types_map (h : string -> cell -> cell) l :
  group_types (map (fun tc => (fst tc, h (fst tc) (snd tc))) l) =
  map (fun b => Block (btype b) (map (h (btype b)) (bdata b))) (group_types l).
Proof.
  induction l as [|[t c] l IH]; [reflexivity|]. cbn [map group_types fst snd]. rewrite IH.
  destruct (group_types l) as [|[t' cs] bs]; [reflexivity|]. cbn [map btype bdata].
  destruct (String.eqb_spec t t') as [->|]; reflexivity.
Qed.

Lemma In_block_cell b bs c : In b bs -> In c (bdata b) -> In (btype b, c) (all_cells bs).
Proof.
  intros Hb Hc. unfold all_cells. apply in_flat_map. exists b. split; auto. now apply in_map.
Qed.

Lemma mapM_ok_in {A B} (f : A -> result B) (g : A -> B) l :
  (forall x, In x l -> f x = Ok (g x)) -> mapM f l = Ok (map g l).
Proof.
  induction l as [|x l IH]; intros H; [reflexivity|]. cbn. rewrite (H x) by now left. cbn.
  now rewrite IH by (intros; apply H; now right).
Qed.

Lemma map_id_in {A} (f : A -> A) l : (forall x, In x l -> f x = x) -> map f l = l.
Proof. intros H. rewrite <- (map_id l) at 2. now apply map_ext_in. Qed.

(** If the reader turns every stored cell [c] of type [t] into [g t c], it turns the blocks of
    stored cells into the blocks of those. *)
Lemma fix_blocks table (g : string -> cell -> cell) w l :
  (forall t c, In (t, c) l -> length c = w t) ->
  (forall t c, In (t, c) l ->
     (do r <- gmsh_to_meshio_order t (map (fun n => n - 1)%Z c); lookup_cell table r) = Ok (g t c)) ->
  mapM (fix_block table) (group_types l) = Ok (group_types (map (fun tc => (fst tc, g (fst tc) (snd tc))) l)).
Proof.
  intros Hw Hc. rewrite group_types_map.
  assert (E := group_types_cells l). apply mapM_ok_in. intros b Hb. unfold fix_block.
  assert (R : check_rectangular b = Ok tt).
  { unfold check_rectangular. destruct (bdata b) as [|c cs] eqn:Eb; [reflexivity|].
    replace (forallb _ _) with true; [reflexivity|]. symmetry. apply forallb_forall.
    intros x Hx. apply Nat.eqb_eq. rewrite (Hw (btype b) x), (Hw (btype b) c); auto;
      rewrite <- E; apply In_block_cell; auto; rewrite Eb; cbn; auto. }
  rewrite R. cbn [bind].
  rewrite (mapM_ok_in _ (g (btype b))); [reflexivity|].
  intros c Hi. apply Hc. rewrite <- E. now apply In_block_cell.
Qed.

(** ** Tags spread over blocks *)
Section Spread.
Variable td : dict (list Z).

Lemma slice_mid {A} (p x q : list A) : slice (length p) (length p + length x) (p ++ x ++ q) = x.
Proof.
  unfold slice. rewrite skipn_app, skipn_all, Nat.sub_diag. cbn [skipn app].
  replace (length p + length x - length p) with (length x) by lia.
  rewrite firstn_app, firstn_all, Nat.sub_diag. cbn [firstn]. apply app_nil_r.
Qed.

Definition of_type {V} (t : string) (vals : list (string * V)) : list V :=
  map snd (filter (fun tv => String.eqb (fst tv) t) vals).
Lemma of_type_app {V} t (a b : list (string * V)) : of_type t (a ++ b) = of_type t a ++ of_type t b.
Proof. unfold of_type. now rewrite filter_app, map_app. Qed.
Lemma of_type_same {V} t (vs : list V) : of_type t (map (pair t) vs) = vs.
Proof. unfold of_type. induction vs as [|v vs IH]; cbn; auto. rewrite String.eqb_refl. cbn. now rewrite IH. Qed.
Lemma of_type_other {V} t t' (vs : list V) : t <> t' -> of_type t (map (pair t') vs) = [].
Proof.
  intros H. unfold of_type. induction vs as [|v vs IH]; cbn; auto.
  destruct (String.eqb_spec t' t); [congruence|]. auto.
Qed.

Lemma spread_spec bs offset pre vals :
  map fst vals = map fst (all_cells bs) ->
  (forall t, match dget t td with Some l => l | None => [] end = of_type t (pre ++ vals)) ->
  (forall t, match dget t offset with Some o => o | None => 0 end = length (of_type t pre)) ->
  spread_tags offset td bs = data_for bs (map snd vals).
Proof.
  revert offset pre vals; induction bs as [|b bs IH]; intros offset pre vals Hf Ht Ho; [reflexivity|].
  rewrite all_cells_cons, map_app, map_map in Hf. cbn [fst] in Hf.
  set (n := blen b) in *.
  assert (Hv : exists vs rest, vals = map (pair (btype b)) vs ++ rest /\ length vs = n /\
               map fst rest = map fst (all_cells bs)).
  { unfold n, blen. clear - Hf. revert vals Hf. induction (bdata b) as [|c cs IHc]; intros vals Hf.
    - exists [], vals. cbn in Hf. auto.
    - destruct vals as [|[t v] vals]; [discriminate|]. cbn [map app fst] in Hf. injection Hf as -> Hf.
      destruct (IHc vals Hf) as (vs & rest & -> & Hl & Hr). exists (v :: vs), rest. cbn. auto. }
  destruct Hv as (vs & rest & -> & Hl & Hr).
  cbn [spread_tags]. fold n. rewrite Ho, Ht. unfold data_for. cbn [map split_lens]. fold n.
  rewrite map_app, map_map. cbn [snd]. rewrite map_id.
  rewrite of_type_app, of_type_app, of_type_same. rewrite <- Hl, slice_mid.
  rewrite firstn_app, firstn_all, Nat.sub_diag, skipn_app, skipn_all, Nat.sub_diag. cbn [firstn skipn app].
  rewrite app_nil_r. f_equal. apply (IH _ (pre ++ map (pair (btype b)) vs)); auto.
  - intros t. rewrite <- app_assoc. apply Ht.
  - intros t. rewrite dget_dset, of_type_app, app_length. destruct (String.eqb_spec t (btype b)) as [->|Hne].
    + now rewrite of_type_same.
    + rewrite of_type_other by auto. rewrite Ho. cbn. lia.
Qed.
End Spread.

Lemma dget_filter_nonempty {V} t (d : dict (list V)) : NoDup (dkeys d) ->
  match dget t (filter (fun kv => match snd kv with [] => false | _ => true end) d) with Some l => l | None => [] end
  = match dget t d with Some l => l | None => [] end.
Proof.
  induction d as [|[k v] d IH]; intros Hd; [reflexivity|]. cbn in Hd. inversion Hd as [|? ? Hn Hd']; subst.
  cbn [filter snd]. destruct v as [|x v]; cbn [dget].
  - rewrite IH by auto. destruct (String.eqb_spec t k) as [->|]; auto.
    apply dget_None in Hn. now rewrite Hn.
  - destruct (String.eqb t k); auto.
Qed.

(** Column [k] of the tags of every type: the [k]-th tags of its cells in file order. *)
Lemma tag_column_spec k (vals : list (string * list Z)) (xs : list (string * Z)) t :
  Forall2 (fun v x => fst v = fst x /\ nth_error (snd v) k = Some (snd x)) vals xs ->
  match dget t (tag_column k (group_tags vals)) with Some l => l | None => [] end = of_type t xs.
Proof.
  intros H. unfold tag_column, group_tags.
  rewrite dget_filter_nonempty.
  - rewrite (dget_map_val (flat_map (fun item : list Z => match nth_error item k with Some x => [x] | None => [] end))).
    rewrite dget_group. cbn [dget].
    assert (E : flat_map (fun item : list Z => match nth_error item k with Some x => [x] | None => [] end)
                 (map snd (filter (fun b : string * list Z => String.eqb (fst b) t) vals)) = of_type t xs).
    { unfold of_type. induction H as [|v x vals xs [H1 H2] H IH]; [reflexivity|]. cbn [filter]. rewrite H1.
      destruct (String.eqb (fst x) t); auto. cbn [map flat_map]. rewrite H2, IH. reflexivity. }
    destruct (map snd (filter _ vals)) eqn:F; cbn [option_map]; rewrite <- E; [reflexivity|]. reflexivity.
  - rewrite (dkeys_map_val (flat_map _)). rewrite (dkeys_group fst snd). cbn [dkeys map app smem existsb negb].
    apply NoDup_filter. apply NoDup_first_occurrences.
Qed.

(** ** Node tags and elements of arbitrary files *)
Lemma position_nth t tags : In t tags -> nth_error tags (position t tags) = Some t.
Proof.
  induction tags as [|x xs IH]; cbn; [tauto|]. intros H. destruct (Z.eqb_spec x t) as [->|Hne]; [reflexivity|].
  destruct H; [congruence|]. cbn. auto.
Qed.

Definition cell_from (tags : list Z) (t : string) (nodes : list Z) : cell :=
  map (fun n => Z.of_nat (position n tags))
    match permute match dget t meshio_ordering with Some p => p | None => seq 0 (length nodes) end nodes with
    | Some ns => ns
    | None => []
    end.
Lemma element_cell_eq tags e : element_cell tags e = (e_type e, cell_from tags (e_type e) (e_nodes e)).
Proof. reflexivity. Qed.

Lemma permute_seq {A} (l : list A) : permute (seq 0 (length l)) l = Some l.
Proof.
  apply permute_intro; [now rewrite seq_length|]. intros k i H.
  assert (Hk := nth_error_lt _ _ _ H). rewrite seq_length in Hk.
  rewrite (nth_error_nth' _ 0) in H by now rewrite seq_length. rewrite seq_nth in H by auto. cbn in H. congruence.
Qed.

Lemma permute_In {A} p (l r : list A) x : permute p l = Some r -> In x r -> In x l.
Proof.
  unfold permute. revert r; induction p as [|i p IH]; cbn; intros r; [intros H; injection H as <-; intros []|].
  destruct (nth_error l i) as [y|] eqn:E; [|discriminate]. destruct (mapO _ p) as [ys|]; [|discriminate].
  intros H. injection H as <-. intros [->|Hin]; [eapply nth_error_In; eauto|eauto].
Qed.
Lemma permute_map {A B} (f : A -> B) p l r : permute p l = Some r -> permute p (map f l) = Some (map f r).
Proof.
  unfold permute. revert r; induction p as [|i p IH]; cbn; intros r H; [injection H as <-; reflexivity|].
  rewrite nth_error_map. destruct (nth_error l i) as [y|]; [|discriminate]. cbn.
  destruct (mapO _ p) as [ys|]; [|discriminate]. rewrite (IH ys eq_refl). now injection H as <-.
Qed.

Lemma gmsh_order_total t (nodes : list Z) n : dget t num_nodes_per_cell = Some n -> length nodes = n ->
  exists ns, permute match dget t meshio_ordering with Some p => p | None => seq 0 (length nodes) end nodes = Some ns /\
    length ns = n /\ gmsh_to_meshio_order t nodes = Ok ns.
Proof.
  intros Hn Hl. unfold gmsh_to_meshio_order.
  destruct (apply_order_inverse meshio_ordering gmsh_ordering t nodes meshio_tables) as (r & Hr & Hlr & _).
  { intros p Hp. apply ordering_widths in Hp. congruence. }
  exists r. split; [|split; [congruence|auto]]. unfold apply_order in Hr.
  destruct (dget t meshio_ordering) as [p|].
  - destruct (permute p nodes); cbn in Hr; congruence.
  - injection Hr as <-. apply permute_seq.
Qed.

Lemma gmsh_order_shift t k nodes ns : gmsh_to_meshio_order t nodes = Ok ns ->
  gmsh_to_meshio_order t (map (fun n => n - k)%Z nodes) = Ok (map (fun n => n - k)%Z ns).
Proof.
  unfold gmsh_to_meshio_order, apply_order. destruct (dget t meshio_ordering) as [p|].
  - destruct (permute p nodes) as [r|] eqn:E; cbn; [|discriminate]. intros H. injection H as <-.
    now rewrite (permute_map _ _ _ _ E).
  - intros H. injection H as <-. reflexivity.
Qed.

Section File.
Context {fl : floats}.
Hypothesis Hfl : floats_ok fl.

Lemma read_elements_spec tags els rest :
  tags <> [] -> NoDup tags -> Forall (fun t => 1 <= t)%Z tags -> Forall (element_ok tags) els ->
  exists p g, 
    read_elements tags (str_of_nat (length els) :: map element_line els ++ "$EndElements" :: rest) =
      Ok (regroup (map (element_cell tags) els), p, g, rest) /\
    p = tag_column 0 (group_tags (map (fun e => (e_type e, e_tags e)) els)) /\
    g = tag_column 1 (group_tags (map (fun e => (e_type e, e_tags e)) els)).
Proof.
  intros Hne Hd Hp Hels. eexists _, _. split; [|split; reflexivity].
  unfold read_elements. cbn [line1 hd tl]. rewrite int_line_nat. cbn [bind]. rewrite Nat2Z.id.
  assert (M : mapM read_element (map element_line els) = Ok (map (fun e => (e_type e, e_nodes e, e_tags e)) els)).
  { clear - Hels. induction Hels as [|e els He Hels IH]; [reflexivity|]. cbn [map mapM].
    rewrite (read_element_line tags) by auto. cbn [bind]. now rewrite IH. }
  rewrite (read_lines_n _ _ _ _ _ (eq_sym (map_length _ _)) M). cbn [bind fst snd].
  destruct (lookup_table_ok (map (fun t => t - 1)%Z tags)) as (table & Ht & Hl).
  { destruct tags; [congruence|discriminate]. }
  { apply FinFun.Injective_map_NoDup; auto. intros a b H. lia. }
  { apply Forall_map. eapply Forall_impl; [|exact Hp]. cbn. lia. }
  rewrite Ht. cbn [bind]. rewrite !map_map. cbn [fst snd].
  rewrite (fix_blocks table (cell_from tags)
             (fun t => match dget t num_nodes_per_cell with Some n => n | None => 0 end)).
  - cbn [bind]. rewrite map_map. cbn [fst snd]. 
    rewrite skip_to_here by reflexivity.
    rewrite (group_types_regroup (fun t => match dget t num_nodes_per_cell with Some n => n | None => 0 end)).
    + do 4 f_equal. 
    + apply Forall_map. eapply Forall_impl; [|exact Hels]. cbn [fst snd]. intros e (_ & Hn & _). rewrite Hn.
      unfold cell_from. rewrite map_length.
      destruct (gmsh_order_total _ _ _ Hn eq_refl) as (ns & -> & Hlen & _). auto.
  - intros t c Hin. apply in_map_iff in Hin. destruct Hin as (e & E & Hin). injection E as <- <-.
    rewrite Forall_forall in Hels. destruct (Hels e Hin) as (_ & Hn & _). now rewrite Hn.
  - intros t c Hin. apply in_map_iff in Hin. destruct Hin as (e & E & Hin). injection E as <- <-.
    rewrite Forall_forall in Hels. destruct (Hels e Hin) as (_ & Hn & Htags).
    destruct (gmsh_order_total _ _ _ Hn eq_refl) as (ns & Hns & Hlen & Hord).
    rewrite (gmsh_order_shift _ 1 _ _ Hord). cbn [bind]. unfold cell_from. rewrite Hns.
    rewrite (lookup_cell_ok _ _ _ Hl (map (fun n => position n tags) ns)).
    + now rewrite map_map.
    + assert (Hin' : Forall (fun n => In n tags) ns).
      { apply Forall_forall. intros n Hn'. rewrite Forall_forall in Htags. apply Htags. eapply permute_In; eauto. }
      clear - Hin'. induction Hin' as [|n ns Hn Hin' IH]; cbn; constructor; auto.
      rewrite nth_error_map, position_nth by auto. reflexivity.
Qed.

(** ** Nodes *)
Lemma node_rows_ok (tags : list Z) (pts : list (list fl)) rest :
  length tags = length pts -> Forall (fun p => length p = 3) pts ->
  read_nodes (str_of_nat (length pts) ::
    map (fun tp => row_line (str_of_Z (fst tp) :: map ffmt (snd tp))) (combine tags pts) ++ "$EndNodes" :: rest) =
  Ok (tags, pts, rest).
Proof.
  intros Hl Hp. unfold read_nodes. cbn [line1 hd tl]. rewrite int_line_nat. cbn [bind]. rewrite Nat2Z.id.
  set (rows := map (fun tp : Z * list fl => str_of_Z (fst tp) :: map ffmt (snd tp)) (combine tags pts)).
  assert (E : map (fun tp : Z * list fl => row_line (str_of_Z (fst tp) :: map ffmt (snd tp))) (combine tags pts)
              = map row_line rows) by (unfold rows; now rewrite map_map).
  rewrite E.
  assert (Hlen : Forall (fun r => length r = 4) rows).
  { apply Forall_map. apply Forall_forall. intros [t p] Hin. cbn. rewrite map_length.
    apply in_combine_r in Hin. rewrite Forall_forall in Hp. now rewrite (Hp p Hin). }
  rewrite (take_rows rows).
  - cbn [of_option bind fst snd]. rewrite chunks_concat by (auto; lia).
    assert (M : mapM read_node rows = Ok (combine tags pts)).
    { unfold rows. clear - Hfl. induction (combine tags pts) as [|[t p] l IH]; [reflexivity|].
      cbn [map mapM fst snd read_node]. rewrite parse_Z_str_of_Z. cbn [of_option bind].
      rewrite parse_floats_ok by auto. cbn [bind]. now rewrite IH. }
    rewrite M. cbn [bind]. rewrite skip_to_here by reflexivity.
    rewrite map_fst_combine, map_snd_combine by auto. reflexivity.
  - apply solid_cons. reflexivity.
  - apply Forall_map. apply Forall_forall. intros [t p] Hin. split; [|discriminate].
    cbn [forallb fst snd]. now rewrite word_str_of_Z, words_floats.
  - rewrite (concat_uniform_length 4) by auto. unfold rows. rewrite map_length, combine_length. lia.
Qed.

(** ** Periodic links *)
Lemma read_pair_ok sm : read_pair (row_line [str_of_Z (fst sm + 1); str_of_Z (snd sm + 1)]) = Ok sm.
Proof.
  unfold read_pair, row_line. rewrite (split_ws_join [_; _]) by (cbn; now rewrite !word_str_of_Z).
  change [str_of_Z (fst sm + 1); str_of_Z (snd sm + 1)] with (map str_of_Z [fst sm + 1; snd sm + 1]%Z).
  rewrite parse_ints_ok. cbn [bind]. destruct sm as [a b]. cbn. do 2 f_equal; lia.
Qed.

Lemma digits_not_affine n : startswith (str_of_nat n) "Affine" = false.
Proof.
  unfold startswith. pose proof (str_of_N_all_digits (N.of_nat n)) as H. unfold str_of_nat.
  destruct (str_of_N (N.of_nat n)) as [|c s]; [reflexivity|]. cbn in H. apply andb_true_iff in H. destruct H as [H _].
  cbn [String.prefix]. destruct (ascii_dec "A" c) as [<-|]; [discriminate|reflexivity].
Qed.

Lemma prefix_app p s : String.prefix p (p ++ s)%string = true.
Proof.
  induction p as [|c p IH]; cbn; [now destruct s|]. destruct (ascii_dec c c); [auto|congruence].
Qed.
Lemma substring_all s : String.substring 0 (String.length s) s = s.
Proof. induction s as [|c s IH]; cbn; auto. now rewrite IH. Qed.
Lemma remove_prefix_app p s : remove_prefix p (p ++ s)%string = s.
Proof.
  unfold remove_prefix.
  assert (L : String.length (p ++ s)%string = String.length p + String.length s).
  { induction p as [|c p IH]; cbn; auto. }
  rewrite L. replace (String.length p + String.length s - String.length p) with (String.length s) by lia.
  induction p as [|c p IH]; cbn; [apply substring_all|]. auto.
Qed.

Lemma read_link_ok (p : periodic fl) rest : p_affine p <> Some [] ->
  read_link (write_link p ++ rest) = Ok (p, rest).
Proof.
  intros Ha. unfold write_link, read_link. destruct p as [d s m a ns]. cbn [p_dim p_slave p_master p_affine p_nodes] in *.
  cbn [app line1 hd tl]. unfold row_line at 1.
  rewrite (split_ws_join [_; _; _]) by (cbn; now rewrite !word_str_of_Z).
  change [str_of_Z d; str_of_Z s; str_of_Z m] with (map str_of_Z [d; s; m]). rewrite parse_ints_ok. cbn [bind].
  assert (M : mapM read_pair (map (fun sm => row_line [str_of_Z (fst sm + 1); str_of_Z (snd sm + 1)]) ns) = Ok ns).
  { clear. induction ns as [|sm ns IH]; [reflexivity|]. cbn [map mapM]. rewrite read_pair_ok. cbn [bind]. now rewrite IH. }
  destruct a as [a|].
  - cbn [app line1 hd tl].
    destruct a as [|x a]; [congruence|].
    assert (E : ("Affine " ++ row_line (map ffmt (x :: a)))%string = row_line ("Affine" :: map ffmt (x :: a))).
    { unfold row_line. cbn [map]. now rewrite join_cons. }
    assert (W := words_floats (x :: a) Hfl).
    rewrite E, strip_row by (cbn [forallb]; rewrite W; reflexivity).
    assert (E2 : row_line ("Affine" :: map ffmt (x :: a)) = ("Affine" ++ String " " (row_line (map ffmt (x :: a))))%string).
    { unfold row_line. cbn [map]. rewrite join_cons. reflexivity. }
    rewrite E2. unfold startswith. rewrite prefix_app, remove_prefix_app.
    rewrite split_ws_space by reflexivity. unfold row_line at 1. rewrite split_ws_join by auto.
    rewrite parse_floats_ok by auto. cbn [bind]. rewrite int_line_nat. cbn [bind]. rewrite Nat2Z.id.
    rewrite (read_lines_n _ _ _ _ _ (eq_sym (map_length _ _)) M). reflexivity.
  - cbn [app line1 hd tl]. rewrite strip_word by apply word_str_of_nat. rewrite digits_not_affine.
    rewrite int_line_nat. cbn [bind]. rewrite Nat2Z.id.
    rewrite (read_lines_n _ _ _ _ _ (eq_sym (map_length _ _)) M). reflexivity.
Qed.

Lemma read_periodic_ok (ps : list (periodic fl)) rest : Forall (fun p => p_affine p <> Some []) ps ->
  read_periodic (tl (write_periodic ps) ++ rest) = Ok (ps, rest).
Proof.
  intros H. unfold write_periodic, read_periodic. cbn [app tl line1 hd]. rewrite int_line_nat. cbn [bind].
  rewrite Nat2Z.id, <- app_assoc.
  assert (L : read_links (length ps) (flat_map write_link ps ++ ["$EndPeriodic"] ++ rest) = Ok (ps, ["$EndPeriodic"] ++ rest)).
  { induction H as [|p ps Hp H IH]; [reflexivity|]. cbn [flat_map length read_links]. rewrite <- app_assoc.
    rewrite read_link_ok by auto. cbn [bind fst snd]. rewrite IH. reflexivity. }
  rewrite L. cbn [bind fst snd app]. rewrite skip_to_here by reflexivity. reflexivity.
Qed.
End File.
