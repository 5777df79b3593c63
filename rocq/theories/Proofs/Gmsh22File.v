(** The MSH 2.2 round trip (C23). *)
From Verif.Lib Require Import Base Facts Facts2 Text TextFacts Lines LinesFacts Runs Perm BytesFacts.
From Verif.Model Require Import Core Gmsh Gmsh22.
From Verif.Spec Require Import Core Blocks Gmsh Gmsh22.
From Verif.Proofs Require Import Core CoreMisc Blocks VtuPoly Gmsh Gmsh22.

(** ** Elements as written *)
Definition gorder (t : string) (c : cell) : cell :=
  match meshio_to_gmsh_order t c with Ok r => r | Err _ => c end.
Definition block_elements (start : nat) (tags : list (list Z)) (b : block) : list element :=
  map (fun ic => Element (btype b) (Z.of_nat (start + fst ic + 1)) (cell_tags_of tags (fst ic))
                   (map (fun n => n + 1)%Z (gorder (btype b) (snd ic)))) (enumerate (bdata b)).
Fixpoint blocks_elements (start : nat) (l : list (block * list (list Z))) : list element :=
  match l with
  | [] => []
  | (b, tags) :: l' => block_elements start tags b ++ blocks_elements (start + blen b) l'
  end.

Lemma gorder_ok t n c : dget t num_nodes_per_cell = Some n -> length c = n ->
  meshio_to_gmsh_order t c = Ok (gorder t c) /\ length (gorder t c) = n /\
  gmsh_to_meshio_order t (gorder t c) = Ok c.
Proof.
  intros Hn Hl. unfold gorder, meshio_to_gmsh_order, gmsh_to_meshio_order.
  destruct (apply_order_inverse gmsh_ordering meshio_ordering t c gmsh_tables) as (r & Hr & Hlr & Hb).
  { intros p Hp. apply ordering_widths' in Hp. congruence. }
  rewrite Hr. split; [auto|]. split; [congruence|auto].
Qed.

Lemma enumerate_map {A B} (f : A -> B) l : enumerate (map f l) = map (fun ia => (fst ia, f (snd ia))) (enumerate l).
Proof.
  unfold enumerate. rewrite map_length. generalize 0. induction l as [|x l IH]; intros k; cbn; auto. now rewrite IH.
Qed.

Lemma write_block_ok start tags b : gmsh_block b ->
  write_block start tags b = Ok (map element_numbers (block_elements start tags b)).
Proof.
  intros (code & n & Hc & Hn & Hr). unfold write_block.
  rewrite (mapM_ok_in _ (gorder (btype b))).
  - cbn [bind]. rewrite Hc. cbn [of_option bind]. f_equal. unfold block_elements. rewrite enumerate_map, !map_map.
    apply map_ext. intros [i c]. unfold element_tokens, element_numbers. cbn [fst snd e_type e_id e_tags e_nodes].
    rewrite Hc. unfold cell_tags_of. now rewrite map_length.
  - intros c Hi. unfold rows_have in Hr. rewrite Forall_forall in Hr. apply (gorder_ok _ n); auto.
Qed.

Lemma write_blocks_ok start l : Forall gmsh_block (map fst l) ->
  write_blocks start l = Ok (map element_numbers (blocks_elements start l)).
Proof.
  revert start; induction l as [|[b tags] l IH]; intros start H; [reflexivity|]. cbn [map fst] in H.
  inversion H; subst. cbn [write_blocks blocks_elements]. rewrite write_block_ok by auto. cbn [bind].
  rewrite IH by auto. cbn [bind]. now rewrite map_app.
Qed.

Lemma blocks_elements_length start l : length (blocks_elements start l) = sum_nat (map blen (map fst l)).
Proof.
  revert start; induction l as [|[b tags] l IH]; intros start; [reflexivity|].
  cbn [blocks_elements map sum_nat fst]. rewrite app_length, IH. unfold block_elements.
  now rewrite map_length, enumerate_length.
Qed.

Definition node_tags (n : nat) : list Z := map (fun k => Z.of_nat (k + 1)) (seq 0 n).

Lemma position_seq n i a : i < n -> position (Z.of_nat (a + i + 1)) (map (fun k => Z.of_nat (k + 1)) (seq a n)) = i.
Proof.
  revert i a; induction n as [|n IH]; intros i a H; [lia|]. cbn [seq map position].
  destruct (Z.eqb_spec (Z.of_nat (a + 1)) (Z.of_nat (a + i + 1))) as [E|E]; [lia|].
  destruct i as [|i]; [lia|]. f_equal. replace (a + S i + 1) with (S a + i + 1) by lia. apply IH. lia.
Qed.
Lemma position_node_tags n i : (0 <= i < Z.of_nat n)%Z -> Z.of_nat (position (i + 1) (node_tags n)) = i.
Proof.
  intros H. unfold node_tags. replace (i + 1)%Z with (Z.of_nat (0 + Z.to_nat i + 1)) by lia.
  rewrite position_seq by lia. lia.
Qed.
Lemma In_node_tags n i : (0 <= i < Z.of_nat n)%Z -> In (i + 1)%Z (node_tags n).
Proof.
  intros H. unfold node_tags. apply in_map_iff. exists (Z.to_nat i). split; [lia|]. apply in_seq. lia.
Qed.
Lemma NoDup_node_tags n : NoDup (node_tags n).
Proof. apply FinFun.Injective_map_NoDup; [|apply seq_NoDup]. intros a b H. lia. Qed.
Lemma node_tags_pos n : Forall (fun t => 1 <= t)%Z (node_tags n).
Proof. apply Forall_map. apply Forall_forall. intros k _. lia. Qed.

Lemma block_elements_ok np start tags b : gmsh_block b -> indices_below np b ->
  Forall (element_ok (node_tags np)) (block_elements start tags b) /\
  map (element_cell (node_tags np)) (block_elements start tags b) = map (pair (btype b)) (bdata b).
Proof.
  intros (code & n & Hc & Hn & Hr) Hi. unfold rows_have in Hr. unfold indices_below in Hi.
  rewrite Forall_forall in Hr. rewrite Forall_forall in Hi.
  assert (K : forall i c, In (i, c) (enumerate (bdata b)) -> In c (bdata b))
    by (intros i c H; unfold enumerate in H; now apply in_combine_r in H).
  split.
  - apply Forall_map. apply Forall_forall. intros [i c] Hin. specialize (K i c Hin).
    destruct (gorder_ok (btype b) n c Hn (Hr c K)) as (H1 & H2 & H3).
    unfold element_ok. cbn [e_type e_nodes fst snd]. repeat split; [eauto| |].
    + now rewrite map_length, H2.
    + apply Forall_map. apply Forall_forall. intros x Hx. apply In_node_tags.
      specialize (Hi c K). rewrite Forall_forall in Hi. apply Hi.
      destruct (gmsh_order_total (btype b) (gorder (btype b) c) n Hn H2) as (ns & _ & _ & _).
      unfold gorder, meshio_to_gmsh_order, apply_order in Hx, H1.
      destruct (dget (btype b) gmsh_ordering) as [p|]; [|auto].
      destruct (permute p c) as [r|] eqn:E; [|auto]. cbn in Hx. eapply permute_In; eauto.
  - unfold block_elements. rewrite <- (enumerate_snd (bdata b)) at 2. rewrite !map_map. apply map_ext_in.
    intros [i c] Hin. specialize (K i c Hin). rewrite element_cell_eq. cbn [e_type e_nodes fst snd]. f_equal.
    destruct (gorder_ok (btype b) n c Hn (Hr c K)) as (H1 & H2 & H3).
    destruct (gmsh_order_total (btype b) (gorder (btype b) c) n Hn H2) as (ns & E1 & _ & E2).
    rewrite H3 in E2. injection E2 as <-. unfold cell_from. rewrite map_length, H2 in *.
    rewrite (permute_map (fun n => n + 1)%Z _ _ _ E1). rewrite map_map. apply map_id_in. intros x Hx.
    apply position_node_tags. specialize (Hi c K). rewrite Forall_forall in Hi. auto.
Qed.

Lemma blocks_elements_ok np start l : Forall gmsh_block (map fst l) -> Forall (indices_below np) (map fst l) ->
  Forall (element_ok (node_tags np)) (blocks_elements start l) /\
  map (element_cell (node_tags np)) (blocks_elements start l) = all_cells (map fst l).
Proof.
  revert start; induction l as [|[b tags] l IH]; intros start H1 H2; [split; [constructor|reflexivity]|].
  cbn [map fst] in *. inversion H1; subst. inversion H2; subst. cbn [blocks_elements].
  destruct (block_elements_ok np start tags b) as [A B]; auto.
  destruct (IH (start + blen b)) as [C D]; auto. split.
  - apply Forall_app; auto.
  - rewrite map_app, B, D, all_cells_cons. reflexivity.
Qed.

(** Tag columns of the elements. *)
Lemma nth_error_cell_tags cols i k col : nth_error cols k = Some col ->
  nth_error (cell_tags_of cols i) k = Some (nth i col 0%Z).
Proof. intros H. unfold cell_tags_of. rewrite nth_error_map, H. reflexivity. Qed.

Lemma map_nth_enumerate {A} (f : A -> string) (l : list A) (d : list Z) :
  length d = length l -> map (fun ia => nth (fst ia) d 0%Z) (enumerate l) = d.
Proof.
  unfold enumerate. intros H. rewrite <- H at 1.
  assert (G : forall pre l d, length d = length l ->
            map (fun ia : nat * A => nth (fst ia) (pre ++ d) 0%Z) (combine (seq (length pre) (length d)) l) = d).
  { clear. intros pre l d; revert pre l; induction d as [|x d IH]; intros pre [|y l] H; try discriminate; [reflexivity|].
    cbn [length seq combine map fst]. rewrite app_nth2, Nat.sub_diag by lia. cbn [nth]. f_equal.
    specialize (IH (pre ++ [x]) l). rewrite app_length in IH. cbn [length] in IH.
    replace (length pre + 1) with (S (length pre)) in IH by lia. rewrite <- app_assoc in IH. cbn [app] in IH.
    apply IH. cbn in H. lia. }
  specialize (G [] l d H). cbn in G. exact G.
Qed.

Lemma combine_app {A B} (a1 a2 : list A) (b1 b2 : list B) : length a1 = length b1 ->
  combine (a1 ++ a2) (b1 ++ b2) = combine a1 b1 ++ combine a2 b2.
Proof. revert b1; induction a1 as [|x a1 IH]; intros [|y b1] H; try discriminate; cbn; auto. now rewrite IH by (cbn in H; lia). Qed.

Lemma blocks_elements_tags k start (l : list (block * list (list Z))) (d : list (list Z)) :
  Forall2 (fun bt col => nth_error (snd bt) k = Some col /\ length col = blen (fst bt)) l d ->
  Forall2 (fun v x => fst v = fst x /\ nth_error (snd v) k = Some (snd x))
    (map (fun e => (e_type e, e_tags e)) (blocks_elements start l))
    (combine (map fst (all_cells (map fst l))) (concat d)).
Proof.
  intros H. revert start. induction H as [|[b tags] col l d [H1 H2] H IH]; intros start; [constructor|].
  cbn [blocks_elements map fst snd concat] in *. rewrite map_app, all_cells_cons, map_app.
  rewrite combine_app by (rewrite !map_length; unfold blen in H2; auto).
  apply Forall2_app; auto.
  unfold block_elements. rewrite !map_map. cbn [e_type e_tags fst].
  rewrite <- (map_nth_enumerate (fun _ => ""%string) (bdata b) col) by (unfold blen in H2; auto).
  rewrite <- (enumerate_snd (bdata b)) at 2. rewrite map_map.
  generalize (enumerate (bdata b)) as en. clear - H1. induction en as [|[i c] en IH]; cbn; constructor; auto.
  cbn. split; auto. now rewrite (nth_error_cell_tags _ _ _ _ H1).
Qed.

(** ** The ElementData split *)
Lemma fit_two bs (V : Type) (d : list V) start :
  bs <> [] -> Forall (fun b => 0 < blen b) bs -> start + sum_nat (map blen bs) = length d ->
  forallb (fun bd : block * list V => Nat.eqb (blen (fst bd)) (length (snd bd)))
    (combine bs (np_split_from start (butlast (cumsum_from start (map (fun _ => 2) bs))) d)) =
  forallb (fun b => Nat.eqb (blen b) 2) (removelast bs).
Proof.
  revert start; induction bs as [|b bs IH]; intros start Hne Hp Hs; [congruence|].
  inversion Hp as [|? ? Hb Hp']; subst. destruct bs as [|b2 bs].
  - cbn [map cumsum_from butlast removelast np_split_from combine forallb fst snd].
    cbn in Hs. rewrite skipn_length. replace (length d - start) with (blen b) by lia. now rewrite Nat.eqb_refl.
  - set (rest := b2 :: bs) in *. 
    assert (E : butlast (cumsum_from start (map (fun _ => 2) (b :: rest))) =
                (start + 2) :: butlast (cumsum_from (start + 2) (map (fun _ => 2) rest))) by reflexivity.
    rewrite E. cbn [np_split_from combine forallb fst snd].
    assert (R : removelast (b :: rest) = b :: removelast rest) by reflexivity.
    rewrite R. cbn [forallb].
    assert (L : length (slice start (start + 2) d) = Nat.min 2 (length d - start)).
    { unfold slice. rewrite firstn_length, skipn_length. lia. }
    rewrite L. cbn [map sum_nat] in Hs.
    assert (Hr : 0 < sum_nat (map blen rest)).
    { inversion Hp' as [|? ? Hb2 _]; subst. unfold rest. cbn. lia. }
    destruct (Nat.eqb_spec (blen b) 2) as [E2|E2].
    + rewrite E2. replace (Nat.min 2 (length d - start)) with 2 by lia. cbn [Nat.eqb andb].
      apply IH; [discriminate|auto|lia].
    + destruct (Nat.eqb_spec (blen b) (Nat.min 2 (length d - start))); [lia|reflexivity].
Qed.

Lemma np_split_from_length {A} start pts (d : list A) : length (np_split_from start pts d) = S (length pts).
Proof. revert start; induction pts as [|p ps IH]; intros start; cbn; auto. Qed.
Lemma cumsum_from_length a l : length (cumsum_from a l) = length l.
Proof. revert a; induction l as [|x l IH]; intros a; cbn; auto. Qed.
Lemma butlast_length {A} (l : list A) : length (butlast l) = length l - 1.
Proof.
  unfold butlast. induction l as [|x l IH]; auto. destruct l; auto. cbn [removelast length] in *. rewrite IH. cbn. lia.
Qed.

Lemma lengths_fit_two bs {V} (d : list V) : Forall (fun b => 0 < blen b) bs -> sum_nat (map blen bs) = length d ->
  lengths_fit bs (cell_data_from_raw1 (map (fun _ => 2) bs) d) =
  match bs with [] => false | _ => forallb (fun b => Nat.eqb (blen b) 2) (removelast bs) end.
Proof.
  intros Hp Hs. unfold lengths_fit, cell_data_from_raw1, np_split. destruct bs as [|b bs]; [reflexivity|].
  rewrite np_split_from_length, butlast_length. unfold cumsum. rewrite cumsum_from_length, map_length.
  cbn [length]. replace (S (S (length bs) - 1)) with (S (length bs)) by lia.
  rewrite Nat.eqb_refl. cbn [andb]. now apply fit_two with (start := 0).
Qed.

Lemma cumsum_two bs start : forallb (fun b => Nat.eqb (blen b) 2) (removelast bs) = true ->
  butlast (cumsum_from start (map (fun _ => 2) bs)) = butlast (cumsum_from start (map blen bs)).
Proof.
  revert start; induction bs as [|b bs IH]; intros start H; [reflexivity|]. destruct bs as [|b2 bs]; [reflexivity|].
  set (rest := b2 :: bs) in *.
  assert (R : removelast (b :: rest) = b :: removelast rest) by reflexivity.
  rewrite R in H. cbn [forallb] in H. apply andb_true_iff in H. destruct H as [Hb H]. apply Nat.eqb_eq in Hb.
  assert (E : forall f : block -> nat, butlast (cumsum_from start (map f (b :: rest))) =
                (start + f b) :: butlast (cumsum_from (start + f b) (map f rest))) by reflexivity.
  rewrite !E, Hb. f_equal. now apply IH.
Qed.

Section File.
Context {fl : floats}.
Hypothesis Hfl : floats_ok fl.

(** ** Sections *)
Inductive runs : list string -> rstate fl -> rstate fl -> nat -> Prop :=
| runs_nil st : runs [] st st 0
| runs_cons env body rest st st' st'' n :
    word env = true -> read_section env (body ++ rest) st = Ok (st', rest) ->
    runs rest st' st'' n -> runs (("$" ++ env)%string :: body ++ rest) st st'' (S n).

Lemma runs_read ls st st' n f : runs ls st st' n -> n < f -> read_sections f ls st = Ok st'.
Proof.
  intros H. revert f. induction H as [|env body rest st st' st'' n Hw Hs Hr IH]; intros f Hf.
  - destruct f; [lia|]. reflexivity.
  - destruct f as [|f]; [lia|]. cbn [read_sections].
    assert (B : drop_blank (("$" ++ env)%string :: body ++ rest) = ("$" ++ env)%string :: body ++ rest).
    { cbn [drop_blank]. replace (blank ("$" ++ env)%string) with false; [reflexivity|]. symmetry.
      apply blank_word. apply word_no_space in Hw. destruct Hw as [Hw _]. cbn. now rewrite Hw. }
    rewrite B. cbn [append]. change (negb (Ascii.eqb "$" "$")) with false. cbn iota.
    rewrite strip_word by auto. rewrite Hs. cbn [bind fst snd]. apply IH. lia.
Qed.
Lemma runs_length ls st st' n : runs ls st st' n -> n <= length ls.
Proof. induction 1; cbn [length]; [lia|]. rewrite app_length. lia. Qed.
Lemma runs_read22 ls st st' n : runs ls st st' n -> read_sections (S (length ls)) ls st = Ok st'.
Proof. intros H. pose proof (runs_length _ _ _ _ H). apply (runs_read _ _ _ _ _ H). lia. Qed.

Lemma sec_names ls s1 s2 s3 s4 s5 s6 s7 s8 s9 :
  @read_section fl "PhysicalNames" ls (RState s1 s2 s3 s4 s5 s6 s7 s8 s9) =
  do r <- read_physical_names s6 ls; Ok (RState s1 s2 s3 s4 s5 (fst r) s7 s8 s9, snd r).
Proof. reflexivity. Qed.
Lemma sec_nodes ls s1 s2 s3 s4 s5 s6 s7 s8 s9 :
  @read_section fl "Nodes" ls (RState s1 s2 s3 s4 s5 s6 s7 s8 s9) =
  do r <- read_nodes ls; let '(tags, points, rest) := r in Ok (RState tags points s3 s4 s5 s6 s7 s8 s9, rest).
Proof. reflexivity. Qed.
Lemma sec_elements ls s1 s2 s3 s4 s5 s6 s7 s8 s9 :
  @read_section fl "Elements" ls (RState s1 s2 s3 s4 s5 s6 s7 s8 s9) =
  do r <- read_elements s1 ls; let '(bs, p, g, rest) := r in Ok (RState s1 s2 bs p g s6 s7 s8 s9, rest).
Proof. reflexivity. Qed.
Lemma sec_periodic ls s1 s2 s3 s4 s5 s6 s7 s8 s9 :
  @read_section fl "Periodic" ls (RState s1 s2 s3 s4 s5 s6 s7 s8 s9) =
  do r <- read_periodic ls; Ok (RState s1 s2 s3 s4 s5 s6 (Some (fst r)) s8 s9, snd r).
Proof. reflexivity. Qed.

(** One data section after the other. *)
Lemma components_ok (rows : list (list fl)) : gmsh_rows rows ->
  In (components rows) [1; 3; 9] /\ Forall (fun r => length r = components rows) rows.
Proof.
  intros (nc & Hn & Hr). destruct rows as [|r rows]; cbn [components]; [split; [now left|constructor]|].
  inversion Hr; subst. auto.
Qed.

Lemma node_data_runs (pd : dict (list (list fl))) secs rest st st'' n :
  mapM (fun kv => write_data "NodeData" (fst kv) (components (snd kv)) (snd kv)) pd = Ok secs ->
  Forall plain_name (dkeys pd) -> Forall (fun kv => gmsh_rows (snd kv)) pd ->
  runs rest (RState (s_tags st) (s_points st) (s_cells st) (s_phys st) (s_geom st) (s_names st) (s_periodic st)
               (dupdate (s_pdata st) pd) (s_craw st)) st'' n ->
  exists n', runs (concat secs ++ rest) st st'' n'.
Proof.
  revert secs st; induction pd as [|[k rows] pd IH]; intros secs st Hm Hk Hr Hrest.
  - cbn in Hm. injection Hm as <-. cbn in *. exists n. now destruct st.
  - cbn [mapM fst snd] in Hm. inversion Hk as [|? ? Hk1 Hk2]; subst. inversion Hr as [|? ? Hr1 Hr2]; subst.
    cbn [fst snd] in *. destruct (components_ok rows Hr1) as [Hc Hf].
    destruct (write_data "NodeData" k (components rows) rows) as [sec|] eqn:E1; cbn in Hm; [|discriminate].
    destruct (mapM _ pd) as [secs'|] eqn:E; cbn in Hm; [|discriminate]. injection Hm as <-.
    destruct (IH secs' (RState (s_tags st) (s_points st) (s_cells st) (s_phys st) (s_geom st) (s_names st) (s_periodic st)
               (dset k rows (s_pdata st)) (s_craw st)) eq_refl Hk2 Hr2 Hrest) as (n' & Hn').
    exists (S n'). cbn [concat]. rewrite <- app_assoc.
    destruct (data_section_ok Hfl "NodeData" k (components rows) rows (s_pdata st) (concat secs' ++ rest)
                eq_refl (proj1 Hk1) Hc Hf) as (body & Hw & Hrd).
    rewrite Hw in E1. injection E1 as <-.
    eapply (runs_cons "NodeData" body); [reflexivity| |exact Hn'].
    destruct st as [s1 s2 s3 s4 s5 s6 s7 s8 s9]. cbn -[read_data app concat dset] in Hrd |- *. rewrite Hrd. reflexivity.
Qed.

Lemma cell_data_runs (cr : dict (list (list fl))) secs rest st st'' n :
  mapM (fun kv => write_data "ElementData" (fst kv) (components (snd kv)) (snd kv)) cr = Ok secs ->
  Forall plain_name (dkeys cr) -> Forall (fun kv => gmsh_rows (snd kv)) cr ->
  runs rest (RState (s_tags st) (s_points st) (s_cells st) (s_phys st) (s_geom st) (s_names st) (s_periodic st)
               (s_pdata st) (dupdate (s_craw st) cr)) st'' n ->
  exists n', runs (concat secs ++ rest) st st'' n'.
Proof.
  revert secs st; induction cr as [|[k rows] pd IH]; intros secs st Hm Hk Hr Hrest.
  - cbn in Hm. injection Hm as <-. cbn in *. exists n. now destruct st.
  - cbn [mapM fst snd] in Hm. inversion Hk as [|? ? Hk1 Hk2]; subst. inversion Hr as [|? ? Hr1 Hr2]; subst.
    cbn [fst snd] in *. destruct (components_ok rows Hr1) as [Hc Hf].
    destruct (write_data "ElementData" k (components rows) rows) as [sec|] eqn:E1; cbn in Hm; [|discriminate].
    destruct (mapM _ pd) as [secs'|] eqn:E; cbn in Hm; [|discriminate]. injection Hm as <-.
    destruct (IH secs' (RState (s_tags st) (s_points st) (s_cells st) (s_phys st) (s_geom st) (s_names st) (s_periodic st)
               (s_pdata st) (dset k rows (s_craw st))) eq_refl Hk2 Hr2 Hrest) as (n' & Hn').
    exists (S n'). cbn [concat]. rewrite <- app_assoc.
    destruct (data_section_ok Hfl "ElementData" k (components rows) rows (s_craw st) (concat secs' ++ rest)
                eq_refl (proj1 Hk1) Hc Hf) as (body & Hw & Hrd).
    rewrite Hw in E1. injection E1 as <-.
    eapply (runs_cons "ElementData" body); [reflexivity| |exact Hn'].
    destruct st as [s1 s2 s3 s4 s5 s6 s7 s8 s9]. cbn -[read_data app concat dset] in Hrd |- *. rewrite Hrd. reflexivity.
Qed.

Lemma mapM_exists {A B} (f : A -> result B) l : (forall x, In x l -> exists y, f x = Ok y) -> exists ys, mapM f l = Ok ys.
Proof.
  induction l as [|x l IH]; intros H; [now exists []|]. destruct (H x (or_introl eq_refl)) as (y & Hy).
  destruct IH as (ys & Hys); [intros; apply H; now right|]. exists (y :: ys). cbn. now rewrite Hy, Hys.
Qed.

Lemma regroup_block_cell l b : In b (regroup l) -> exists c, In (btype b, c) l.
Proof.
  intros Hb. pose proof (regroup_grouped l) as G. rewrite <- (regroup_cells l). induction (regroup l) as [|b' bs IH]; [destruct Hb|].
  destruct Hb as [->|Hb].
  - destruct G as [(c & cs & Ec & _) _]. exists c. apply (In_block_cell b (b :: bs)); [now left|]. rewrite Ec. now left.
  - destruct (IH Hb) as (c & Hc); [now destruct G|]. exists c. rewrite all_cells_cons. apply in_or_app. now right.
Qed.
Lemma regroup_dims l : Forall (fun tc : string * cell => exists d, cellblock_dim (fst tc) = Ok d) l ->
  exists ds, mapM (fun b => cellblock_dim (btype b)) (regroup l) = Ok ds.
Proof.
  intros H. apply mapM_exists. intros b Hb. destruct (regroup_block_cell l b Hb) as (c & Hc).
  rewrite Forall_forall in H. exact (H _ Hc).
Qed.
Lemma all_cells_dims bs : Forall (fun b => exists d, cellblock_dim (btype b) = Ok d) bs ->
  Forall (fun tc : string * cell => exists d, cellblock_dim (fst tc) = Ok d) (all_cells bs).
Proof.
  induction 1 as [|b bs Hb H IH]; [constructor|]. rewrite all_cells_cons. apply Forall_app. split; [|exact IH].
  apply Forall_map, Forall_forall. intros c _. exact Hb.
Qed.

Lemma write_data_total tag name (rows : list (list fl)) : gmsh_rows rows ->
  exists s, write_data tag name (components rows) rows = Ok s.
Proof.
  intros H. destruct (components_ok rows H) as [Hc _]. unfold write_data.
  destruct Hc as [<-|[<-|[<-|[]]]]; cbn; eauto.
Qed.

Lemma dupdate_nil {V} (d : dict V) : NoDup (dkeys d) -> dupdate [] d = d.
Proof.
  intros H. unfold dupdate.
  assert (G : forall pre, NoDup (dkeys (pre ++ d)) -> fold_left (fun acc kv => dset (fst kv) (snd kv) acc) d pre = pre ++ d).
  { clear H. induction d as [|[k v] d IH]; intros pre H; cbn; [now rewrite app_nil_r|].
    rewrite dset_notin.
    - rewrite IH; rewrite <- app_assoc; auto.
    - unfold dkeys in *. rewrite map_app in H. cbn in H. apply NoDup_remove_2 in H. intros Hin. apply H.
      apply in_or_app. now left. }
  apply (G []). exact H.
Qed.

Lemma enumerate_Forall2 {A B} (R : A -> B -> Prop) l d (def : B) : Forall2 R l d ->
  Forall2 (fun kb col => nth (fst kb) d def = col /\ R (snd kb) col) (enumerate l) d.
Proof.
  intros H. unfold enumerate.
  assert (G : forall pre l d, Forall2 R l d ->
    Forall2 (fun kb col => nth (fst kb) (pre ++ d) def = col /\ R (snd kb) col) (combine (seq (length pre) (length l)) l) d).
  { clear. intros pre l d H. revert pre. induction H as [|x y l d Hxy H IH]; intros pre; cbn [length seq combine]; constructor.
    - cbn [fst snd]. rewrite app_nth2, Nat.sub_diag by lia. auto.
    - specialize (IH (pre ++ [y])). rewrite app_length in IH. cbn [length] in IH.
      replace (length pre + 1) with (S (length pre)) in IH by lia. rewrite <- app_assoc in IH. exact IH. }
  exact (G [] l d H).
Qed.

Lemma Forall2_map_l {A B C} (f : A -> B) (R : B -> C -> Prop) l d :
  Forall2 (fun a c => R (f a) c) l d -> Forall2 R (map f l) d.
Proof. induction 1; cbn; constructor; auto. Qed.
Lemma Forall2_impl' {A B} (R S : A -> B -> Prop) l d : (forall a b, R a b -> S a b) -> Forall2 R l d -> Forall2 S l d.
Proof. intros H. induction 1; constructor; auto. Qed.

Definition column (m : gmesh fl) (d : option (list (list Z))) : list (list Z) :=
  match d with Some d => d | None => map (fun b => repeat 0%Z (blen b)) (g_cells m) end.

Lemma column_fits (m : gmesh fl) d : (forall x, d = Some x -> per_cell (g_cells m) x) -> per_cell (g_cells m) (column m d).
Proof.
  intros H. destruct d as [d|]; [now apply H|]. unfold column, per_cell. clear H.
  induction (g_cells m); cbn; constructor; auto. apply repeat_length.
Qed.

Lemma block_tags_fst (m : gmesh fl) : map fst (block_tags m) = g_cells m.
Proof. unfold block_tags. rewrite map_map. cbn [fst]. apply enumerate_snd. Qed.

Lemma block_tags_column (m : gmesh fl) k d : nth_error (tag_columns m) k = Some (column m d) ->
  (forall x, d = Some x -> per_cell (g_cells m) x) ->
  Forall2 (fun bt col => nth_error (snd bt) k = Some col /\ length col = blen (fst bt)) (block_tags m) (column m d).
Proof.
  intros Hk Hd. unfold block_tags. apply Forall2_map_l. cbn [fst snd].
  eapply Forall2_impl'; [|apply (enumerate_Forall2 _ _ _ [] (column_fits m d Hd))].
  intros [i b] col [H1 H2]. cbn [fst snd] in *. rewrite nth_error_map, Hk. cbn [option_map]. now rewrite H1.
Qed.

Lemma per_cell_concat {V} bs (d : list (list V)) : per_cell bs d -> length (concat d) = length (all_cells bs).
Proof.
  unfold per_cell. induction 1 as [|b a bs d H1 H IH]; [reflexivity|]. cbn [concat].
  rewrite all_cells_cons, !app_length, map_length, IH, H1. reflexivity.
Qed.

Lemma column_concat (m : gmesh fl) d :
  concat (column m d) = match d with Some d => concat d | None => map (fun _ => 0%Z) (all_cells (g_cells m)) end.
Proof.
  destruct d as [d|]; [reflexivity|]. cbn. induction (g_cells m) as [|b bs IH]; [reflexivity|].
  cbn [map concat]. rewrite IH, all_cells_cons, map_app, map_map. f_equal. unfold blen.
  induction (bdata b); cbn; auto. now f_equal.
Qed.

(** The tags that come out. *)
Lemma tag_column_nil k (vals : list (string * list Z)) (xs : list (string * Z)) :
  Forall2 (fun v x => fst v = fst x /\ nth_error (snd v) k = Some (snd x)) vals xs ->
  (tag_column k (group_tags vals) = [] <-> xs = []).
Proof.
  intros H. split.
  - intros E. destruct xs as [|[t z] xs]; [auto|]. pose proof (tag_column_spec k vals _ t H) as S.
    rewrite E in S. cbn in S. unfold of_type in S. cbn in S. rewrite String.eqb_refl in S. discriminate.
  - intros ->. inversion H; subst. reflexivity.
Qed.

Lemma some_tags_ok (m : gmesh fl) k d start : nth_error (tag_columns m) k = Some (column m d) ->
  (forall x, d = Some x -> per_cell (g_cells m) x) ->
  some_tags (tag_column k (group_tags (map (fun e => (e_type e, e_tags e)) (blocks_elements start (block_tags m)))))
    (merged m) = tags_read m d.
Proof.
  intros Hk Hd. pose proof (blocks_elements_tags k start _ _ (block_tags_column m k d Hk Hd)) as H.
  rewrite block_tags_fst in H. unfold some_tags, tags_read.
  assert (L : length (concat (column m d)) = length (all_cells (g_cells m))) by (apply per_cell_concat, column_fits; auto).
  set (xs := combine (map fst (all_cells (g_cells m))) (concat (column m d))) in *.
  pose proof (tag_column_nil k _ _ H) as Hn.
  assert (Hxs : map fst xs = map fst (all_cells (g_cells m))) by (unfold xs; rewrite map_fst_combine by (rewrite map_length; auto); reflexivity).
  assert (Hys : map snd xs = concat (column m d)) by (unfold xs; rewrite map_snd_combine by (rewrite map_length; auto); reflexivity).
  rewrite (column_concat m d) in *.
  destruct (all_cells (g_cells m)) as [|c cs] eqn:E.
  - assert (X : xs = []) by (destruct xs; [auto|discriminate]). apply Hn in X. now rewrite X.
  - destruct (tag_column _ _) as [|kv td] eqn:Et.
    + assert (X : xs = []) by (now apply Hn). rewrite X in Hxs. discriminate.
    + rewrite <- Et. f_equal. rewrite <- Hys. apply (spread_spec _ _ [] []).
      * rewrite Hxs. unfold merged. now rewrite regroup_cells, E.
      * intros t. cbn [app]. now apply tag_column_spec.
      * intros t. reflexivity.
Qed.

Lemma lengths_fit_data {V} bs (d : list V) : length d = length (all_cells bs) -> lengths_fit bs (data_for bs d) = true.
Proof.
  intros H. pose proof (data_for_length bs d H) as E. unfold lengths_fit.
  assert (L : length (data_for bs d) = length bs) by (rewrite <- (map_length (@length V)), E; apply map_length).
  rewrite L, Nat.eqb_refl. cbn [andb]. clear - E. revert E. generalize (data_for bs d) as l.
  induction bs as [|b bs IH]; intros [|x l] H; try discriminate; [reflexivity|]. cbn in *. injection H as H1 H2.
  rewrite H1, Nat.eqb_refl. cbn [andb]. now apply IH.
Qed.

Lemma tags_read_fit (m : gmesh fl) d : (forall x, d = Some x -> per_cell (g_cells m) x) ->
  match tags_read m d with Some l => lengths_fit (merged m) l | None => true end = true.
Proof.
  intros Hd. unfold tags_read. destruct (all_cells (g_cells m)) as [|c cs] eqn:E; [reflexivity|].
  apply lengths_fit_data. unfold merged. rewrite regroup_cells, E.
  destruct d as [d|]; [|now rewrite map_length]. rewrite (per_cell_concat (g_cells m)) by auto. now rewrite E.
Qed.

Lemma merged_pos (m : gmesh fl) : Forall (fun b => 0 < blen b) (merged m).
Proof.
  unfold merged. pose proof (regroup_grouped (all_cells (g_cells m))) as G. induction (regroup _) as [|b bs IH]; constructor.
  - destruct G as [(c & cs & Hb & _) _]. unfold blen. rewrite Hb. cbn. lia.
  - apply IH. now destruct G.
Qed.

Lemma write_nodes_lines (pts : list (list fl)) :
  write_nodes pts = "$Nodes"%string :: str_of_nat (length (map pad3 pts)) ::
    map (fun tp => row_line (str_of_Z (fst tp) :: map ffmt (snd tp))) (combine (node_tags (length (map pad3 pts))) (map pad3 pts))
    ++ ["$EndNodes"%string].
Proof.
  unfold write_nodes. cbn [app]. rewrite map_length. do 3 f_equal.
  unfold enumerate, node_tags. rewrite map_length.
  assert (G : forall a (l : list (list fl)), 
    map (fun kp => row_line (str_of_nat (fst kp + 1) :: map ffmt (snd kp))) (combine (seq a (length l)) l) =
    map (fun tp => row_line (str_of_Z (fst tp) :: map ffmt (snd tp))) (combine (map (fun k => Z.of_nat (k + 1)) (seq a (length l))) l)).
  { clear. intros a l; revert a; induction l as [|x l IH]; intros a; [reflexivity|]. cbn [length seq map combine fst snd].
    rewrite IH, str_of_nat_Z. reflexivity. }
  rewrite <- (map_length pad3 pts). apply G.
Qed.

(** The assembly of the mesh from the sections. *)
Lemma finish22_ok (m : gmesh fl) nm : msh22_mesh m ->
  let td := group_tags (map (fun e => (e_type e, e_tags e)) (blocks_elements 0 (block_tags m))) in
  finish22 (RState (node_tags (length (g_points m))) (map pad3 (g_points m)) (merged m) (tag_column 0 td) (tag_column 1 td)
              nm (g_periodic m) (g_pdata m) (map (fun kv => (fst kv, concat (snd kv))) (g_cdata m))) =
      if match g_cdata m with [] => true | _ => splittable m end
      then Ok (GMesh (map pad3 (g_points m)) (merged m) (tags_read m (g_phys m)) (tags_read m (g_geom m)) None
                 nm (g_periodic m) (g_pdata m)
                 (map (fun kv => (fst kv, data_for (merged m) (concat (snd kv)))) (g_cdata m)))
      else Err ValueError.
Proof.
  intros [v1 v2 v3 v4 v5 v6 v7 [v8 v8'] v9 [v10 v10'] v11 [v12 v12'] v13 v14] td.
  set (raw := map (fun kv => (fst kv, concat (snd kv))) (g_cdata m)).
  unfold finish22. cbn [s_cells s_craw s_phys s_geom s_points s_pdata s_names s_periodic].
  destruct (regroup_dims _ (all_cells_dims _ v14)) as (ds & Eds). unfold merged at 1. rewrite Eds. cbn [bind].
  unfold td. rewrite (some_tags_ok m 0 (g_phys m) 0 eq_refl v5), (some_tags_ok m 1 (g_geom m) 0 eq_refl v6).
  rewrite !tags_read_fit by auto. rewrite !andb_true_r.
  assert (Hpl : forallb (fun kv : string * list (list fl) => Nat.eqb (length (snd kv)) (length (map pad3 (g_points m)))) (g_pdata m) = true).
  { apply forallb_forall. intros kv Hin. rewrite Forall_forall in v11. destruct (v11 kv Hin) as [E _].
    rewrite map_length, E. apply Nat.eqb_refl. }
  rewrite Hpl. cbn [andb].
  assert (Hsum : forall kv, In kv (g_cdata m) -> sum_nat (map blen (merged m)) = length (concat (snd kv))).
  { intros kv Hin. rewrite <- all_cells_length. unfold merged. rewrite regroup_cells. symmetry. apply per_cell_concat.
    rewrite Forall_forall in v13. now destruct (v13 kv Hin) as (_ & H & _). }
  assert (Hfit : forallb (fun kv => lengths_fit (merged m) (snd kv)) (cell_data_from_raw (map (fun _ => 2) (merged m)) raw)
                 = match g_cdata m with [] => true | _ => splittable m end).
  { unfold cell_data_from_raw, raw. rewrite map_map. cbn [fst snd].
    assert (G : forall kv, In kv (g_cdata m) -> 
      lengths_fit (merged m) (cell_data_from_raw1 (map (fun _ => 2) (merged m)) (concat (snd kv))) = splittable m).
    { intros kv Hin. rewrite lengths_fit_two; [unfold splittable; now destruct (merged m)|apply merged_pos|auto]. }
    clear - G. destruct (g_cdata m) as [|kv l]; [reflexivity|]. cbn [map forallb snd]. rewrite G by now left.
    destruct (splittable m) eqn:Es; [|reflexivity]. cbn [andb]. apply forallb_forall. intros x Hx.
    apply in_map_iff in Hx. destruct Hx as (kv2 & <- & Hin). cbn [snd]. apply G. now right. }
  rewrite Hfit. destruct (match g_cdata m with [] => true | _ => splittable m end) eqn:Es; [|reflexivity].
  do 2 f_equal. unfold cell_data_from_raw, raw. rewrite map_map. apply map_ext_in. intros kv Hin. cbn [fst snd]. f_equal.
  assert (S : splittable m = true) by (destruct (g_cdata m); [destruct Hin|exact Es]).
  unfold splittable in S. destruct (merged m) as [|b bs] eqn:Em; [discriminate|]. rewrite <- Em in *.
  assert (S' : forallb (fun b => Nat.eqb (blen b) 2) (removelast (merged m)) = true) by (rewrite Em in *; exact S).
  unfold cell_data_from_raw1, cumsum. rewrite (cumsum_two _ 0 S').
  change (cell_data_from_raw1 (map blen (merged m)) (concat (snd kv)) = data_for (merged m) (concat (snd kv))).
  rewrite from_raw_split; [reflexivity|rewrite Em; discriminate|]. symmetry. auto.
Qed.

Lemma msh22_roundtrip (m : gmesh fl) : msh22_mesh m ->
  exists lines body names, write22 m = Ok lines /\ read_header lines = Ok ("2.2"%string, true, body) /\
    (forall k, dget k names = dget k (g_names m)) /\
    read22 body =
      if match g_cdata m with [] => true | _ => splittable m end
      then Ok (GMesh (map pad3 (g_points m)) (merged m) (tags_read m (g_phys m)) (tags_read m (g_geom m)) None
                 names (g_periodic m) (g_pdata m)
                 (map (fun kv => (fst kv, data_for (merged m) (concat (snd kv)))) (g_cdata m)))
      else Err ValueError.
Proof.
  intros [v1 v2 v3 v4 v5 v6 v7 [v8 v8'] v9 [v10 v10'] v11 [v12 v12'] v13 v14].
  set (els := blocks_elements 0 (block_tags m)).
  assert (We : write_elements m = Ok ("$Elements"%string :: str_of_nat (length els) :: map element_line els ++ ["$EndElements"%string])).
  { unfold write_elements. rewrite write_blocks_ok by now rewrite block_tags_fst. cbn [bind].
    unfold els. rewrite blocks_elements_length, block_tags_fst. cbn [app]. do 3 f_equal. now rewrite map_map. }
  set (raw := map (fun kv => (fst kv, concat (snd kv))) (g_cdata m)).
  assert (Wr : raw_from_cell_data (g_cdata m) = Ok raw).
  { unfold raw_from_cell_data. apply mapM_ok_in. intros [k d] Hin. rewrite Forall_forall in v13.
    destruct (v13 _ Hin) as (H1 & H2 & _). cbn [snd fst] in *. destruct d; [|reflexivity].
    inversion H2; congruence. }
  assert (Hrp : Forall (fun kv => gmsh_rows (snd kv)) (g_pdata m)).
  { eapply Forall_impl; [|exact v11]. cbn. tauto. }
  assert (Hrc : Forall (fun kv => gmsh_rows (snd kv)) raw).
  { unfold raw. apply Forall_map. eapply Forall_impl; [|exact v13]. cbn. tauto. }
  assert (Hkc : dkeys raw = dkeys (g_cdata m)).
  { unfold raw, dkeys. rewrite map_map. reflexivity. }
  destruct (mapM_exists (fun kv => write_data "NodeData" (fst kv) (components (snd kv)) (snd kv)) (g_pdata m)) as (pd & Hpd).
  { intros kv Hin. apply write_data_total. rewrite Forall_forall in Hrp. now apply Hrp. }
  destruct (mapM_exists (fun kv => write_data "ElementData" (fst kv) (components (snd kv)) (snd kv)) raw) as (cd & Hcd).
  { intros kv Hin. apply write_data_total. rewrite Forall_forall in Hrc. now apply Hrc. }
  unfold write22. rewrite We. cbn [bind]. rewrite Hpd. cbn [bind]. rewrite Wr. cbn [bind]. rewrite Hcd. cbn [bind].
  set (np := length (g_points m)).
  assert (Hc3 : Forall (fun p => length p = 3) (map pad3 (g_points m))).
  { apply Forall_map. eapply Forall_impl; [|exact v2]. cbn. intros [|a [|b [|c [|]]]] [H|H]; try discriminate; reflexivity. }
  assert (Hids : Forall (element_ok (node_tags np)) els /\ map (element_cell (node_tags np)) els = all_cells (g_cells m)).
  { pose proof (blocks_elements_ok np 0 (block_tags m)) as H. rewrite block_tags_fst in H. now apply H. }
  destruct Hids as [Hok Hcells].
  assert (Hntags : node_tags np <> []).
  { unfold np, node_tags. destruct (g_points m); [congruence|discriminate]. }
  (* the names *)
  set (tail := write_nodes (g_points m) ++
       ("$Elements"%string :: str_of_nat (length els) :: map element_line els ++ ["$EndElements"%string]) ++
       match g_periodic m with Some ps => write_periodic ps | None => [] end ++ concat pd ++ concat cd).
  set (td := group_tags (map (fun e => (e_type e, e_tags e)) els)).
  set (fin := fun nm => RState (node_tags np) (map pad3 (g_points m)) (merged m) (tag_column 0 td) (tag_column 1 td)
                        nm (g_periodic m) (g_pdata m) raw).
  assert (T : forall nm, exists n, runs tail (RState [] [] [] [] [] nm None [] []) (fin nm) n).
  { intros nm. unfold tail. rewrite write_nodes_lines. rewrite map_length. fold np.
    assert (P3 : exists n, runs (concat pd ++ concat cd)
       (RState (node_tags np) (map pad3 (g_points m)) (merged m) (tag_column 0 td) (tag_column 1 td) nm (g_periodic m) [] []) (fin nm) n).
    { destruct (cell_data_runs raw cd [] (RState (node_tags np) (map pad3 (g_points m)) (merged m) (tag_column 0 td) (tag_column 1 td) nm (g_periodic m) (g_pdata m) [])
                 (fin nm) 0 Hcd) as (n1 & R1).
      { now rewrite Hkc. } { exact Hrc. }
      { cbn [s_tags s_points s_cells s_phys s_geom s_names s_periodic s_pdata s_craw].
        rewrite dupdate_nil by now rewrite Hkc. constructor. }
      rewrite app_nil_r in R1.
      apply (node_data_runs (g_pdata m) pd (concat cd) _ (fin nm) n1 Hpd v10' Hrp).
      cbn [s_tags s_points s_cells s_phys s_geom s_names s_periodic s_pdata s_craw]. now rewrite dupdate_nil. }
    assert (P2 : exists n, runs (match g_periodic m with Some ps => write_periodic ps | None => [] end ++ concat pd ++ concat cd)
       (RState (node_tags np) (map pad3 (g_points m)) (merged m) (tag_column 0 td) (tag_column 1 td) nm None [] []) (fin nm) n).
    { destruct P3 as (n3 & R3). destruct (g_periodic m) as [ps|] eqn:Ep; [|exists n3; exact R3].
      exists (S n3). 
      change (write_periodic ps) with ("$Periodic"%string :: tl (write_periodic ps)).
      change ("$Periodic"%string) with ("$" ++ "Periodic")%string. cbn [app].
      eapply (runs_cons "Periodic" (tl (write_periodic ps))); [reflexivity| |exact R3].
      rewrite sec_periodic. rewrite (read_periodic_ok Hfl) by now apply v9. reflexivity. }
    assert (P1 : exists n, runs (("$Elements"%string :: str_of_nat (length els) :: map element_line els ++ ["$EndElements"%string]) ++
       match g_periodic m with Some ps => write_periodic ps | None => [] end ++ concat pd ++ concat cd)
       (RState (node_tags np) (map pad3 (g_points m)) [] [] [] nm None [] []) (fin nm) n).
    { destruct P2 as (n2 & R2). exists (S n2).
      change ("$Elements"%string) with ("$" ++ "Elements")%string.
      change ((("$" ++ "Elements")%string :: ?x) ++ ?y) with (("$" ++ "Elements")%string :: (x ++ y)).
      eapply (runs_cons "Elements" (str_of_nat (length els) :: map element_line els ++ ["$EndElements"%string])); [reflexivity| |exact R2].
      set (rest := (_ ++ concat pd ++ concat cd)).
      destruct (read_elements_spec (node_tags np) els rest Hntags (NoDup_node_tags np) (node_tags_pos np) Hok) as (p & g & Hr & -> & ->).
      rewrite Hcells in Hr. fold (merged m) in Hr. fold td in Hr.
      rewrite sec_elements. cbn [app]. rewrite <- app_assoc. cbn [app]. rewrite Hr. reflexivity. }
    destruct P1 as (n1 & R1). exists (S n1).
    change ("$Nodes"%string) with ("$" ++ "Nodes")%string.
    change ((("$" ++ "Nodes")%string :: ?x) ++ ?y) with (("$" ++ "Nodes")%string :: (x ++ y)).
    eapply (runs_cons "Nodes"); [reflexivity| |exact R1].
    set (rest := ("$Elements"%string :: _) ++ _).
    pose proof (node_rows_ok Hfl (node_tags np) (map pad3 (g_points m)) rest) as Hn.
    rewrite map_length in Hn. fold np in Hn. unfold node_tags at 1 in Hn. rewrite map_length, seq_length in Hn.
    specialize (Hn eq_refl Hc3).
    rewrite sec_nodes. cbn [app]. rewrite <- app_assoc. cbn [app]. rewrite Hn. reflexivity. }
  assert (B : exists names n, (forall k, dget k names = dget k (g_names m)) /\
     runs (write_physical_names (g_names m) ++ tail) rstate0 (fin names) n).
  { destruct (g_names m) as [|e es] eqn:En.
    - destruct (T []) as (n & R). exists [], n. split; auto.
    - destruct (physical_names_ok (e :: es) tail) as (fd & Hr & Hg & Hh); auto; [discriminate|].
      destruct (T fd) as (n & R). exists fd, (S n). split; auto.
      destruct (write_physical_names (e :: es)) as [|h w] eqn:Ew; [discriminate|]. cbn [hd] in Hh. subst h.
      change ("$PhysicalNames"%string) with ("$" ++ "PhysicalNames")%string. cbn [app].
      eapply (runs_cons "PhysicalNames" w); [reflexivity| |exact R].
      unfold rstate0. rewrite sec_names. cbn [app tl] in Hr. rewrite Hr. reflexivity. }
  destruct B as (names & n & Hnames & R).
  eexists _, _, names. split; [reflexivity|]. split.
  { unfold read_header. cbn [app length skip_comments line1 hd]. change (String.eqb (strip "$MeshFormat") "$Comments") with false.
    cbn iota. cbn [line1 hd tl]. change (String.eqb (strip "$MeshFormat") "$MeshFormat") with true. cbn iota.
    change (split_ws "2.2 0 8") with ["2.2"; "0"; "8"]%string. cbn [negb smem existsb String.eqb orb].
    change (negb (smem "0" ["0"; "1"]%string)) with false. cbn iota.
    change (parse_Z "8") with (Some 8%Z). cbn [of_option bind]. rewrite skip_to_here by reflexivity. reflexivity. }
  split; [exact Hnames|].
  fold tail. unfold read22. rewrite (runs_read22 _ _ _ _ R). cbn [bind].
  apply finish22_ok. constructor; auto.
Qed.
End File.
