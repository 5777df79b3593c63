(** The MSH 2.2 round trip in binary mode (C23). *)
From Coq Require Import ZArith NArith List String Ascii Bool Lia ZifyBool ZifyNat ZifyN.
From Verif.Lib Require Import Base Facts Facts2 Text TextFacts Lines LinesFacts Runs Perm Bytes BytesFacts File.
From Verif.Model Require Import Core Gmsh Gmsh22 Port Gmsh22Bin.
From Verif.Spec Require Import Core Blocks Gmsh Gmsh22 Msh41.
From Verif.Proofs Require Import Core CoreMisc Blocks VtuPoly Gmsh Gmsh22 Gmsh22File Port.
Import ListNotations.

(** ** Chunks *)
Definition element_row (e : element) : list Z := e_id e :: e_tags e ++ e_nodes e.
Definition type_code (t : string) : Z := match dget t meshio_to_gmsh_type with Some c => c | None => 0%Z end.
Definition type_width (t : string) : nat := match dget t num_nodes_per_cell with Some n => n | None => 0 end.
Definition block_rows (start : nat) (tags : list (list Z)) (b : block) : list (list Z) :=
  [type_code (btype b); Z.of_nat (blen b); Z.of_nat (length tags)] :: map element_row (block_elements start tags b).
Fixpoint blocks_rows (start : nat) (l : list (block * list (list Z))) : list (list Z) :=
  match l with
  | [] => []
  | (b, tags) :: l' => block_rows start tags b ++ blocks_rows (start + blen b) l'
  end.
Definition chunk_of (start : nat) (tags : list (list Z)) (b : block) : chunk :=
  Chunk (btype b) (length tags) (map e_nodes (block_elements start tags b)) (map e_tags (block_elements start tags b)).
Fixpoint chunks_of (start : nat) (l : list (block * list (list Z))) : list chunk :=
  match l with
  | [] => []
  | (b, tags) :: l' => chunk_of start tags b :: chunks_of (start + blen b) l'
  end.

Lemma block_numbers_ok start tags b : gmsh_block b -> 0 < blen b ->
  block_numbers start tags b = Ok (block_rows start tags b).
Proof.
  intros (code & n & Hc & Hn & Hr) Hp. unfold block_numbers.
  rewrite (mapM_ok_in _ (gorder (btype b))).
  - cbn [bind]. rewrite Hc. cbn [of_option bind]. f_equal. unfold block_rows. rewrite map_length.
    unfold type_code. rewrite Hc. unfold blen in Hp. f_equal.
    + destruct (bdata b) eqn:E; [cbn in Hp; lia|]. cbn [map]. unfold blen. now rewrite E.
    + unfold block_elements. rewrite enumerate_map, !map_map. apply map_ext. intros [i c]. reflexivity.
  - intros c Hi. unfold rows_have in Hr. rewrite Forall_forall in Hr. apply (gorder_ok _ n); auto.
Qed.
Lemma blocks_numbers_ok start l : Forall gmsh_block (map fst l) -> Forall (fun b => 0 < blen b) (map fst l) ->
  blocks_numbers start l = Ok (blocks_rows start l).
Proof.
  revert start; induction l as [|[b tags] l IH]; intros start H H2; [reflexivity|]. cbn [map fst] in H, H2.
  inversion H; subst. inversion H2; subst. cbn [blocks_numbers blocks_rows]. rewrite block_numbers_ok by auto. cbn [bind].
  rewrite IH by auto. reflexivity.
Qed.

Lemma block_elements_length start tags b : length (block_elements start tags b) = blen b.
Proof. unfold block_elements. rewrite map_length. apply enumerate_length. Qed.

(** [group_types] sees a chunk at once. *)
Lemma group_types_chunk t c cs l : group_types (map (pair t) (c :: cs) ++ l) =
  match group_types l with
  | Block t' cs' :: bs => if String.eqb t t' then Block t' ((c :: cs) ++ cs') :: bs else Block t (c :: cs) :: Block t' cs' :: bs
  | [] => [Block t (c :: cs)]
  end.
Proof.
  revert c; induction cs as [|c2 cs IH]; intros c.
  - cbn [map app group_types]. destruct (group_types l) as [|[t' cs'] bs]; [reflexivity|].
    destruct (String.eqb_spec t t') as [->|]; reflexivity.
  - change (map (pair t) (c :: c2 :: cs) ++ l) with ((t, c) :: map (pair t) (c2 :: cs) ++ l).
    cbn [group_types]. rewrite IH. destruct (group_types l) as [|[t' cs'] bs].
    + now rewrite String.eqb_refl.
    + destruct (String.eqb_spec t t') as [->|Hne].
      * now rewrite String.eqb_refl.
      * now rewrite String.eqb_refl.
Qed.
Lemma join_chunks_ok l : Forall (fun ch => ch_cells ch <> []) l ->
  join_chunks l = group_types (flat_map (fun ch => map (pair (ch_type ch)) (ch_cells ch)) l).
Proof.
  induction 1 as [|ch l Hc H IH]; [reflexivity|]. cbn [join_chunks flat_map]. rewrite IH.
  destruct (ch_cells ch) as [|c cs]; [congruence|]. now rewrite group_types_chunk.
Qed.

Lemma chunks_of_cells start l :
  flat_map (fun ch => map (pair (ch_type ch)) (ch_cells ch)) (chunks_of start l) =
  map (fun e => (e_type e, e_nodes e)) (blocks_elements start l).
Proof.
  revert start; induction l as [|[b tags] l IH]; intros start; [reflexivity|]. cbn [chunks_of flat_map blocks_elements].
  rewrite map_app, IH. f_equal. cbn [chunk_of ch_type ch_cells]. unfold block_elements. rewrite !map_map. reflexivity.
Qed.
Lemma chunks_of_tags start l : flat_map chunk_tags (chunks_of start l) =
  map (fun e => (e_type e, e_tags e)) (blocks_elements start l).
Proof.
  revert start; induction l as [|[b tags] l IH]; intros start; [reflexivity|]. cbn [chunks_of flat_map blocks_elements].
  rewrite map_app, IH. f_equal. unfold chunk_tags. cbn [chunk_of ch_type ch_tags]. unfold block_elements. rewrite !map_map. reflexivity.
Qed.
Lemma chunks_of_filled start l : Forall (fun b => 0 < blen b) (map fst l) -> Forall (fun ch => ch_cells ch <> []) (chunks_of start l).
Proof.
  revert start; induction l as [|[b tags] l IH]; intros start H; [constructor|]. cbn [map fst] in H. inversion H; subst.
  constructor; [|now apply IH]. cbn [chunk_of ch_cells]. pose proof (block_elements_length start tags b).
  destruct (block_elements start tags b); [cbn in *; lia|discriminate].
Qed.
Lemma same_tags_ok n l : Forall (fun ch => ch_ntags ch = n) l -> same_tags l = true.
Proof.
  intros H. unfold same_tags. rewrite Forall_forall in H. apply forallb_forall. intros a Ha. apply forallb_forall. intros b Hb.
  rewrite (H a Ha), (H b Hb), Nat.eqb_refl. apply orb_true_r.
Qed.
Lemma chunks_of_ntags start l n : Forall (fun bt => length (snd bt) = n) l -> Forall (fun ch => ch_ntags ch = n) (chunks_of start l).
Proof.
  intros H. revert start. induction H as [|[b tags] l Hb H IH]; intros start; [constructor|]. cbn [chunks_of]. constructor; auto.
Qed.

(** ** Bytes *)
Definition ints (zs : list Z) : bytes := concat (map (int_bytes CInt) zs).
Lemma ints_app a b : ints (a ++ b) = ints a ++ ints b.
Proof. unfold ints. now rewrite map_app, concat_app. Qed.
Lemma ints_byte zs : Forall is_byte (ints zs).
Proof. unfold ints. apply Forall_concat_bytes, Forall_map, Forall_forall. intros; apply int_bytes_byte. Qed.
Lemma ints_length zs : length (ints zs) = 4 * length zs.
Proof.
  unfold ints. rewrite (concat_uniform_length 4); [rewrite map_length; lia|].
  apply Forall_map, Forall_forall. intros; apply (int_bytes_length CInt).
Qed.
Lemma get_ints_ok zs rest : Forall (in_range CInt) zs -> get_ints_binary CInt (length zs) (ints zs ++ rest) = Ok (zs, rest).
Proof.
  intros H. unfold get_ints_binary, ints. rewrite <- (map_length (int_bytes CInt) zs). rewrite take_items_ok.
  - cbn [fst snd]. rewrite map_map. f_equal. f_equal. apply map_id_in. intros z Hz. apply int_roundtrip.
    rewrite Forall_forall in H. auto.
  - cbn; lia.
  - apply Forall_map, Forall_forall. intros; apply int_bytes_length.
Qed.

Lemma codes_back t code : dget t meshio_to_gmsh_type = Some code -> zget code gmsh_to_meshio_type = Some t.
Proof.
  intros H. assert (C : forallb (fun kv => match zget (snd kv) gmsh_to_meshio_type with Some t => String.eqb t (fst kv) | None => false end)
                     meshio_to_gmsh_type = true) by now vm_compute.
  rewrite forallb_forall in C. apply dget_In in H. specialize (C _ H). cbn [fst snd] in C.
  destruct (zget code gmsh_to_meshio_type); [|discriminate]. apply String.eqb_eq in C. now subst.
Qed.

(** What a block must satisfy to be read back. *)
Definition block_fits (start : nat) (tags : list (list Z)) (b : block) : Prop :=
  gmsh_block b /\ 0 < blen b /\ Forall (Forall (in_range CInt)) (block_rows start tags b).

Lemma element_row_parts start tags b n e : rows_have n b -> dget (btype b) num_nodes_per_cell = Some n ->
  In e (block_elements start tags b) ->
  length (element_row e) = 1 + length tags + n /\ last_n n (element_row e) = e_nodes e /\
  slice 1 (1 + length tags) (element_row e) = e_tags e.
Proof.
  intros Hr Hn Hin. unfold block_elements in Hin. apply in_map_iff in Hin. destruct Hin as ([i c] & <- & Hin).
  unfold enumerate in Hin. apply in_combine_r in Hin. unfold rows_have in Hr. rewrite Forall_forall in Hr.
  destruct (gorder_ok _ _ _ Hn (Hr c Hin)) as (_ & L & _). unfold element_row. cbn [e_id e_tags e_nodes fst snd].
  set (tg := cell_tags_of tags i). assert (Lt : length tg = length tags) by (unfold tg, cell_tags_of; apply map_length).
  set (ns := map (fun n => (n + 1)%Z) (gorder (btype b) c)). assert (Ln : length ns = n) by (unfold ns; now rewrite map_length).
  split; [|split].
  - cbn [length]. rewrite app_length. lia.
  - unfold last_n. cbn [length]. rewrite app_length. replace (S (length tg + length ns) - n) with (S (length tg)) by lia.
    cbn [skipn]. rewrite skipn_app, skipn_all, Nat.sub_diag. reflexivity.
  - unfold slice. cbn [skipn]. rewrite <- Lt. replace (1 + length tg - 1) with (length tg) by lia.
    rewrite firstn_app, firstn_all, Nat.sub_diag. cbn [firstn]. apply app_nil_r.
Qed.

Fixpoint all_fit (start : nat) (l : list (block * list (list Z))) : Prop :=
  match l with
  | [] => True
  | (b, tags) :: l' => block_fits start tags b /\ all_fit (start + blen b) l'
  end.

Lemma read_chunks_ok l : forall start fuel rest, length l <= fuel ->
  all_fit start l ->
  read_chunks fuel (Z.of_nat (sum_nat (map blen (map fst l)))) (ints (concat (blocks_rows start l)) ++ rest) =
  Ok (chunks_of start l, rest).
Proof.
  induction l as [|[b tags] l IH]; intros start fuel rest Hf H.
  - cbn [map sum_nat blocks_rows concat chunks_of]. destruct fuel; reflexivity.
  - destruct H as [((code & n & Hc & Hn & Hr) & Hp & Hb) Hl]. destruct fuel as [|fuel]; [cbn in Hf; lia|].
    cbn [map fst sum_nat blocks_rows chunks_of]. rewrite concat_app, ints_app, <- app_assoc.
    cbn [read_chunks]. replace (Z.of_nat (blen b + sum_nat (map blen (map fst l))) <=? 0)%Z with false by lia.
    unfold block_rows at 1. cbn [concat]. rewrite ints_app, <- app_assoc.
    unfold block_rows in Hb. inversion Hb as [|? ? Hh Hrows]; subst.
    pose proof (get_ints_ok _ (ints (concat (map element_row (block_elements start tags b))) ++ ints (concat (blocks_rows (start + blen b) l)) ++ rest) Hh) as E.
    cbn [length] in E. rewrite E. cbn [bind fst snd]. unfold type_code. rewrite Hc. rewrite (codes_back _ _ Hc). cbn [of_option bind].
    rewrite Hn. cbn [of_option bind].
    replace ((Z.of_nat (blen b) <? 0)%Z || (Z.of_nat (length tags) <? 0)%Z) with false by lia.
    set (w := (1 + Z.of_nat (length tags) + Z.of_nat n)%Z).
    assert (Hw : Forall (fun r => length r = 1 + length tags + n) (map element_row (block_elements start tags b))).
    { apply Forall_map, Forall_forall. intros e He. now apply (element_row_parts start tags b n e). }
    assert (Lc : length (concat (map element_row (block_elements start tags b))) = blen b * (1 + length tags + n)).
    { rewrite (concat_uniform_length (1 + length tags + n)) by auto. rewrite map_length, block_elements_length. lia. }
    assert (Lz : (Z.of_nat (blen b) * w)%Z = Z.of_nat (length (concat (map element_row (block_elements start tags b))))).
    { rewrite Lc. unfold w. lia. }
    rewrite Lz. rewrite Z.min_l by (rewrite app_length, ints_length; lia). rewrite Nat2Z.id.
    rewrite get_ints_ok.
    2: { apply Forall_concat. exact Hrows. }
    cbn [bind fst snd]. rewrite Z.eqb_refl. cbn [negb].
    replace (Z.of_nat (blen b + sum_nat (map blen (map fst l))) - Z.of_nat (blen b))%Z with (Z.of_nat (sum_nat (map blen (map fst l)))) by lia.
    rewrite IH; [|cbn in Hf; lia|exact Hl]. cbn [bind fst snd]. do 2 f_equal. f_equal. unfold chunk_of. rewrite Nat2Z.id.
    replace (Z.to_nat w) with (1 + length tags + n) by (unfold w; lia).
    rewrite chunks_concat by (auto; lia). rewrite !map_map. f_equal; apply map_ext_in; intros e He;
      now apply (element_row_parts start tags b n e).
Qed.

Lemma code_range t code : dget t meshio_to_gmsh_type = Some code -> in_range CInt code.
Proof.
  intros H. assert (C : forallb (fun kv => (0 <=? snd kv)%Z && (snd kv <? 1000)%Z) meshio_to_gmsh_type = true) by now vm_compute.
  rewrite forallb_forall in C. apply dget_In in H. specialize (C _ H). cbn [snd] in C. cbn [in_range]. lia.
Qed.
Lemma nth_range (col : list Z) i : Forall (in_range CInt) col -> in_range CInt (nth i col 0%Z).
Proof.
  intros H. destruct (nth_in_or_default i col 0%Z) as [Hi|Hi].
  - rewrite Forall_forall in H. auto.
  - rewrite Hi. cbn. lia.
Qed.

Lemma block_rows_range np start tags b : gmsh_block b -> indices_below np b -> (Z.of_nat np < 2 ^ 31)%Z ->
  (Z.of_nat (start + blen b) < 2 ^ 31)%Z -> (Z.of_nat (length tags) < 2 ^ 31)%Z -> Forall (Forall (in_range CInt)) tags ->
  Forall (Forall (in_range CInt)) (block_rows start tags b).
Proof.
  intros Hg Hi Hnp Hs Hl Ht. unfold block_rows. constructor.
  - destruct Hg as (code & n & Hc & _). unfold type_code. rewrite Hc.
    constructor; [now apply (code_range (btype b))|]. constructor; [cbn [in_range]; lia|]. constructor; [cbn [in_range]; lia|constructor].
  - destruct (block_elements_ok np start tags b Hg Hi) as [Hok _]. apply Forall_map. apply Forall_forall. intros e He.
    rewrite Forall_forall in Hok. destruct (Hok e He) as (_ & _ & Hn). unfold element_row.
    unfold block_elements in He. apply in_map_iff in He. destruct He as ([i c] & <- & Hin). cbn [e_id e_tags e_nodes fst snd] in *.
    apply enumerate_In in Hin. destruct Hin as [Hin _]. unfold blen in Hs. constructor; [cbn [in_range]; lia|].
    apply Forall_app. split.
    + unfold cell_tags_of. apply Forall_map. eapply Forall_impl; [|exact Ht]. intros col Hcol. now apply nth_range.
    + eapply Forall_impl; [|exact Hn]. intros z Hz. unfold node_tags in Hz. apply in_map_iff in Hz. destruct Hz as (k & <- & Hk).
      apply in_seq in Hk. cbn [in_range]. lia.
Qed.

Lemma all_fit_ok np l : forall start, Forall gmsh_block (map fst l) -> Forall (indices_below np) (map fst l) ->
  Forall (fun b => 0 < blen b) (map fst l) -> (Z.of_nat np < 2 ^ 31)%Z ->
  (Z.of_nat (start + sum_nat (map blen (map fst l))) < 2 ^ 31)%Z ->
  Forall (fun bt => length (snd bt) <= 3 /\ Forall (Forall (in_range CInt)) (snd bt)) l -> all_fit start l.
Proof.
  induction l as [|[b tags] l IH]; intros start H1 H2 H3 Hnp Hs Ht; [exact I|]. cbn [map fst sum_nat] in *.
  inversion H1; subst. inversion H2; subst. inversion H3; subst. inversion Ht as [|? ? [Hl Hr] Ht']; subst. cbn [fst snd] in *.
  split.
  - split; [assumption|]. split; [assumption|]. apply (block_rows_range np); auto; lia.
  - apply IH; auto. lia.
Qed.

Section File.
Context {fl : floats} (c8 : codec fl).
Hypothesis Hfl : floats_ok fl.
Hypothesis Hc : codec_ok c8.

Lemma tag_columns_range (m : gmesh fl) : (forall d, In (Some d) [g_phys m; g_geom m; g_extra m] ->
    Forall (Forall (fun t => - 2 ^ 31 <= t < 2 ^ 31)%Z) d) ->
  Forall (fun bt => length (snd bt) <= 3 /\ Forall (Forall (in_range CInt)) (snd bt)) (block_tags m).
Proof.
  intros H. assert (Z0 : Forall (Forall (in_range CInt)) (map (fun b => repeat 0%Z (blen b)) (g_cells m))).
  { apply Forall_map, Forall_forall. intros b _. apply Forall_forall. intros z Hz. apply repeat_spec in Hz. subst. cbn. lia. }
  assert (C : Forall (Forall (Forall (in_range CInt))) (tag_columns m)).
  { unfold tag_columns. constructor; [|constructor].
    - destruct (g_phys m) as [d|] eqn:E; [apply (H d); now left|exact Z0].
    - destruct (g_geom m) as [d|] eqn:E; [apply (H d); right; now left|exact Z0].
    - destruct (g_extra m) as [d|] eqn:E; [|constructor]. constructor; [|constructor]. apply (H d). right. right. now left. }
  assert (L : length (tag_columns m) <= 3) by (unfold tag_columns; cbn [app length]; destruct (g_extra m); cbn; lia).
  unfold block_tags. apply Forall_map, Forall_forall. intros [k b] _. cbn [snd fst]. rewrite map_length. split; [exact L|].
  apply Forall_map. eapply Forall_impl; [|exact C]. intros d Hd.
  destruct (nth_in_or_default k d []) as [Hi|Hi]; [rewrite Forall_forall in Hd; auto|]. rewrite Hi. constructor.
Qed.
Lemma block_tags_width (m : gmesh fl) : Forall (fun bt => length (snd bt) = length (tag_columns m)) (block_tags m).
Proof. unfold block_tags. apply Forall_map, Forall_forall. intros [k b] _. cbn [snd]. apply map_length. Qed.

(** ** Sections *)
Lemma count_line_ok n rest : Forall is_byte rest ->
  by_lines count_line (text_bytes [str_of_nat n] ++ rest) = Ok (Z.of_nat n, rest).
Proof.
  intros H. apply by_lines_ok; auto.
  - constructor; [apply one_line_nat|constructor].
  - unfold count_line. cbn [app line1 hd tl]. rewrite int_line_nat. reflexivity.
Qed.

Lemma read_nodes_bin_ok (pts : list (list fl)) rest : Forall (fun p => length p = 3) pts ->
  (Z.of_nat (length pts) < 2 ^ 31)%Z -> Forall is_byte rest ->
  read_nodes_bin c8 (text_bytes [str_of_nat (length pts)] ++
    concat (map (record_bytes c8) (enumerate pts)) ++ closing_binary "Nodes" ++ rest) =
  Ok (node_tags (length pts), pts, rest).
Proof.
  intros H3 Hl Hr. unfold read_nodes_bin. rewrite count_line_ok.
  2: { apply Forall_app. split; [apply Forall_concat_bytes, Forall_map, Forall_forall; intros; now apply record_byte|].
       apply Forall_app. split; [apply closing_byte|exact Hr]. }
  cbn [bind fst snd]. rewrite Nat2Z.id.
  assert (Hw : Forall (fun x => length x = 28) (map (record_bytes c8) (enumerate pts))).
  { apply Forall_map, Forall_forall. intros [k r] Hin. apply enumerate_In in Hin. destruct Hin as [_ Hin].
    unfold record_bytes. cbn [fst snd]. rewrite app_length, int_bytes_length.
    rewrite (concat_uniform_length 8) by (apply Forall_map, Forall_forall; intros; apply Hc).
    rewrite map_length. rewrite Forall_forall in H3. rewrite (H3 r Hin). reflexivity. }
  assert (T : take_items 28 (length pts) (concat (map (record_bytes c8) (enumerate pts)) ++ closing_binary "Nodes" ++ rest) =
              (map (record_bytes c8) (enumerate pts), closing_binary "Nodes" ++ rest)).
  { rewrite <- (take_items_ok 28 _ (closing_binary "Nodes" ++ rest)) with (2 := Hw) by lia.
    now rewrite map_length, enumerate_length. }
  rewrite T. cbn [fst snd].
  assert (I : map (fun b => int_of_bytes CInt (firstn 4 b)) (map (record_bytes c8) (enumerate pts)) = node_tags (length pts)).
  { unfold node_tags. rewrite <- enumerate_fst, !map_map. apply map_ext_in. intros [k r] Hin. apply record_index.
    apply enumerate_In in Hin. cbn [in_range fst]. lia. }
  rewrite I. unfold node_tags at 1 2. rewrite index_check. rewrite map_length, seq_length, Nat.eqb_refl. cbn [andb].
  rewrite map_map. rewrite (map_ext _ snd) by (intros; now apply record_values). rewrite enumerate_snd.
  rewrite skip_end_ok by auto. reflexivity.
Qed.

Lemma els_fixed tags els : tags <> [] -> NoDup tags -> Forall (fun t => 1 <= t)%Z tags -> Forall (element_ok tags) els ->
  exists table, lookup_table (map (fun t => t - 1)%Z tags) = Ok table /\
    mapM (fix_block table) (group_types (map (fun e => (e_type e, e_nodes e)) els)) = Ok (regroup (map (element_cell tags) els)).
Proof.
  intros Hne Hd Hp Hels. pose proof (read_elements_spec tags els [] Hne Hd Hp Hels) as (p & g & E & _).
  unfold read_elements in E. cbn [line1 hd tl] in E. rewrite int_line_nat in E. cbn [bind] in E. rewrite Nat2Z.id in E.
  assert (M : mapM read_element (map element_line els) = Ok (map (fun e => (e_type e, e_nodes e, e_tags e)) els)).
  { clear - Hels. induction Hels as [|e els He Hels IH]; [reflexivity|]. cbn [map mapM].
    rewrite (read_element_line tags) by auto. cbn [bind]. now rewrite IH. }
  rewrite (read_lines_n _ _ _ _ _ (eq_sym (map_length _ _)) M) in E. cbn [bind fst snd] in E.
  destruct (lookup_table (map (fun t => (t - 1)%Z) tags)) as [table|]; [|discriminate]. cbn [bind] in E.
  exists table. split; [reflexivity|]. rewrite map_map in E. cbn [fst] in E.
  destruct (mapM (fix_block table) _) as [bs|]; [|discriminate]. cbn [bind] in E. injection E as E _ _. now rewrite E.
Qed.

Lemma read_elements_bin_ok (m : gmesh fl) rest : msh22_mesh m -> binary22 m -> Forall is_byte rest ->
  let els := blocks_elements 0 (block_tags m) in
  let td := group_tags (map (fun e => (e_type e, e_tags e)) els) in
  read_elements_bin (node_tags (length (g_points m)))
    (text_bytes [str_of_nat (sum_nat (map blen (g_cells m)))] ++ ints (concat (blocks_rows 0 (block_tags m))) ++
     closing_binary "Elements" ++ rest) =
  Ok (merged m, tag_column 0 td, tag_column 1 td, rest).
Proof.
  intros [v1 v2 v3 v4 v5 v6 v7 v8 v9 v10 v11 v12 v13 v14] [b1 b2 b3 b4] Hr els td. unfold read_elements_bin.
  rewrite count_line_ok.
  2: { apply Forall_app. split; [apply ints_byte|]. apply Forall_app. split; [apply closing_byte|exact Hr]. }
  cbn [bind fst snd]. set (np := length (g_points m)).
  rewrite all_cells_length in b3.
  pose proof (block_tags_fst m) as Ef. rewrite <- Ef at 1.
  rewrite read_chunks_ok.
  - cbn [bind fst snd]. rewrite (same_tags_ok (length (tag_columns m))) by (apply chunks_of_ntags, block_tags_width).
    cbn [negb]. rewrite join_chunks_ok by (apply chunks_of_filled; now rewrite Ef). rewrite chunks_of_cells, chunks_of_tags.
    fold els. pose proof (blocks_elements_ok np 0 (block_tags m)) as H. rewrite Ef in H. destruct (H v3 v4) as [Hok Hcells].
    fold els in Hok, Hcells.
    destruct (els_fixed (node_tags np) els) as (table & Ht & Hm); auto.
    { unfold np, node_tags. destruct (g_points m); [congruence|discriminate]. }
    { apply NoDup_node_tags. } { apply node_tags_pos. }
    rewrite Ht. cbn [bind]. rewrite Hm. cbn [bind]. rewrite Hcells. rewrite skip_end_ok by auto. reflexivity.
  - assert (G : forall l start, length l <= length (ints (concat (blocks_rows start l)))).
    { clear. induction l as [|[b tags] l IH]; intros start; [cbn; lia|]. cbn [blocks_rows length]. rewrite concat_app, ints_app, app_length.
      specialize (IH (start + blen b)). unfold block_rows. cbn [concat]. rewrite ints_app, app_length, ints_length. cbn [length]. lia. }
    specialize (G (block_tags m) 0). rewrite app_length. lia.
  - apply (all_fit_ok np); rewrite ?Ef; auto; try (unfold np; lia).
    now apply tag_columns_range.
Qed.

Inductive bruns : bytes -> rstate fl -> rstate fl -> nat -> Prop :=
| bruns_nil st : bruns [] st st 0
| bruns_cons env body rest st st' st'' n :
    word env = true -> Forall is_byte (body ++ rest) -> read_section_bin c8 env (body ++ rest) st = Ok (st', rest) ->
    bruns rest st' st'' n -> bruns (text_bytes [("$" ++ env)%string] ++ body ++ rest) st st'' (S n).

Lemma bruns_read s st st' n f : bruns s st st' n -> n < f -> read_sections_bin c8 f s st = Ok st'.
Proof.
  intros H. revert f. induction H as [|env body rest st st' st'' n Hw Hb Hs Hr IH]; intros f Hf.
  - destruct f; [lia|]. reflexivity.
  - destruct f as [|f]; [lia|]. cbn [read_sections_bin].
    rewrite (next_binary_ok next41 env) by (auto; now apply next41_ok). cbn [bind]. rewrite Hs. cbn [bind fst snd]. apply IH. lia.
Qed.
Lemma bruns_length s st st' n : bruns s st st' n -> n <= length s.
Proof.
  induction 1; [cbn; lia|]. rewrite !app_length. unfold text_bytes. cbn [map concat]. rewrite !app_length. cbn [length]. lia.
Qed.
Lemma bruns_byte s st st' n : bruns s st st' n -> Forall is_byte s.
Proof. induction 1; [constructor|]. apply Forall_app. split; [apply text_bytes_byte|assumption]. Qed.
Lemma bruns_read22 s st st' n : bruns s st st' n -> read_sections_bin c8 (S (length s)) s st = Ok st'.
Proof. intros H. pose proof (bruns_length _ _ _ _ H). apply (bruns_read _ _ _ _ _ H). lia. Qed.

Lemma node_data_bruns (pd : dict (list (list fl))) secs rest st st'' n :
  mapM (fun kv => put_data_binary c8 "NodeData" (fst kv) (components (snd kv)) (snd kv)) pd = Ok secs ->
  Forall plain_name (dkeys pd) -> Forall (fun kv => gmsh_rows (snd kv) /\ (Z.of_nat (length (snd kv)) < 2 ^ 31 - 1)%Z) pd ->
  bruns rest (RState (s_tags st) (s_points st) (s_cells st) (s_phys st) (s_geom st) (s_names st) (s_periodic st)
               (dupdate (s_pdata st) pd) (s_craw st)) st'' n ->
  exists n', bruns (concat secs ++ rest) st st'' n'.
Proof.
  revert secs st; induction pd as [|[k rows] pd IH]; intros secs st Hm Hk Hr Hrest.
  - cbn in Hm. injection Hm as <-. cbn in *. exists n. now destruct st.
  - cbn [mapM fst snd] in Hm. inversion Hk as [|? ? Hk1 Hk2]; subst. inversion Hr as [|? ? [Hr1 Hr1'] Hr2]; subst.
    cbn [fst snd] in *. destruct (components_ok rows Hr1) as [Hco Hf].
    destruct (data_binary_ok c8 Hc "NodeData" k (components rows) rows eq_refl eq_refl Hk1 Hco Hf Hr1') as (u & Hu & Hg).
    rewrite Hu in Hm. cbn [bind] in Hm.
    destruct (mapM _ pd) as [secs'|] eqn:E; cbn [bind] in Hm; [|discriminate]. injection Hm as <-.
    destruct (IH secs' (RState (s_tags st) (s_points st) (s_cells st) (s_phys st) (s_geom st) (s_names st) (s_periodic st)
               (dset k rows (s_pdata st)) (s_craw st)) eq_refl Hk2 Hr2 Hrest) as (n' & Hn').
    exists (S n'). cbn [concat]. rewrite <- !app_assoc.
    destruct (Hg (s_pdata st) (concat secs' ++ rest) (bruns_byte _ _ _ _ Hn')) as [G1 G2].
    eapply (bruns_cons "NodeData" u); [reflexivity|exact G2| |exact Hn'].
    destruct st as [s1 s2 s3 s4 s5 s6 s7 s8 s9]. cbn -[get_data_binary app concat dset] in G1 |- *. rewrite G1. reflexivity.
Qed.
Lemma cell_data_bruns (cr : dict (list (list fl))) secs rest st st'' n :
  mapM (fun kv => put_data_binary c8 "ElementData" (fst kv) (components (snd kv)) (snd kv)) cr = Ok secs ->
  Forall plain_name (dkeys cr) -> Forall (fun kv => gmsh_rows (snd kv) /\ (Z.of_nat (length (snd kv)) < 2 ^ 31 - 1)%Z) cr ->
  bruns rest (RState (s_tags st) (s_points st) (s_cells st) (s_phys st) (s_geom st) (s_names st) (s_periodic st)
               (s_pdata st) (dupdate (s_craw st) cr)) st'' n ->
  exists n', bruns (concat secs ++ rest) st st'' n'.
Proof.
  revert secs st; induction cr as [|[k rows] pd IH]; intros secs st Hm Hk Hr Hrest.
  - cbn in Hm. injection Hm as <-. cbn in *. exists n. now destruct st.
  - cbn [mapM fst snd] in Hm. inversion Hk as [|? ? Hk1 Hk2]; subst. inversion Hr as [|? ? [Hr1 Hr1'] Hr2]; subst.
    cbn [fst snd] in *. destruct (components_ok rows Hr1) as [Hco Hf].
    destruct (data_binary_ok c8 Hc "ElementData" k (components rows) rows eq_refl eq_refl Hk1 Hco Hf Hr1') as (u & Hu & Hg).
    rewrite Hu in Hm. cbn [bind] in Hm.
    destruct (mapM _ pd) as [secs'|] eqn:E; cbn [bind] in Hm; [|discriminate]. injection Hm as <-.
    destruct (IH secs' (RState (s_tags st) (s_points st) (s_cells st) (s_phys st) (s_geom st) (s_names st) (s_periodic st)
               (s_pdata st) (dset k rows (s_craw st))) eq_refl Hk2 Hr2 Hrest) as (n' & Hn').
    exists (S n'). cbn [concat]. rewrite <- !app_assoc.
    destruct (Hg (s_craw st) (concat secs' ++ rest) (bruns_byte _ _ _ _ Hn')) as [G1 G2].
    eapply (bruns_cons "ElementData" u); [reflexivity|exact G2| |exact Hn'].
    destruct st as [s1 s2 s3 s4 s5 s6 s7 s8 s9]. cbn -[get_data_binary app concat dset] in G1 |- *. rewrite G1. reflexivity.
Qed.
Lemma put_data_total tag name (rows : list (list fl)) : gmsh_rows rows ->
  exists s, put_data_binary c8 tag name (components rows) rows = Ok s.
Proof.
  intros H. destruct (components_ok rows H) as [Hco _]. unfold put_data_binary.
  destruct Hco as [<-|[<-|[<-|[]]]]; cbn; eauto.
Qed.

Lemma text_bytes_cons l ls : text_bytes (l :: ls) = text_bytes [l] ++ text_bytes ls.
Proof. unfold text_bytes. cbn [map concat]. now rewrite app_nil_r. Qed.

Lemma periodic_one_line (ps : list (periodic fl)) : Forall one_line (write_periodic ps).
Proof.
  unfold write_periodic. cbn [app]. constructor; [reflexivity|]. constructor; [apply one_line_nat|].
  apply Forall_app. split; [|constructor; [reflexivity|constructor]].
  induction ps as [|p ps IH]; [constructor|]. cbn [flat_map]. apply Forall_app. split; [|exact IH].
  unfold write_link. cbn [app]. constructor.
  { apply one_line_join. repeat (constructor; [apply one_line_Z|]). constructor. }
  apply Forall_app. split.
  - destruct (p_affine p) as [a|]; [|constructor]. constructor; [|constructor].
    apply one_line_app; [reflexivity|]. apply one_line_join. apply Forall_map, Forall_forall. intros x _.
    apply one_line_word. apply Hfl.
  - constructor; [apply one_line_nat|]. apply Forall_map, Forall_forall. intros sm _. apply one_line_join.
    repeat (constructor; [apply one_line_Z|]). constructor.
Qed.

Lemma msh22_binary (m : gmesh fl) : msh22_mesh m -> binary22 m ->
  exists s names, write22_bin c8 m = Ok s /\ (forall k, dget k names = dget k (g_names m)) /\
    read22_file c8 s =
      if match g_cdata m with [] => true | _ => splittable m end
      then Ok (GMesh (map pad3 (g_points m)) (merged m) (tags_read m (g_phys m)) (tags_read m (g_geom m)) None
                 names (g_periodic m) (g_pdata m)
                 (map (fun kv => (fst kv, data_for (merged m) (concat (snd kv)))) (g_cdata m)))
      else Err ValueError.
Proof.
  intros Hm Hb. pose proof Hm as [v1 v2 v3 v4 v5 v6 v7 [v8 v8'] v9 [v10 v10'] v11 [v12 v12'] v13 v14].
  pose proof Hb as [b1 b2 b3 b4].
  set (raw := map (fun kv => (fst kv, concat (snd kv))) (g_cdata m)).
  assert (Wr : raw_from_cell_data (g_cdata m) = Ok raw).
  { unfold raw_from_cell_data. apply mapM_ok_in. intros [k d] Hin. rewrite Forall_forall in v13.
    destruct (v13 _ Hin) as (H1 & H2 & _). cbn [snd fst] in *. destruct d; [|reflexivity].
    inversion H2; congruence. }
  assert (Hrp : Forall (fun kv => gmsh_rows (snd kv) /\ (Z.of_nat (length (snd kv)) < 2 ^ 31 - 1)%Z) (g_pdata m)).
  { eapply Forall_impl; [|exact v11]. cbv beta. intros kv [E H]. rewrite E. auto. }
  assert (Hrc : Forall (fun kv => gmsh_rows (snd kv) /\ (Z.of_nat (length (snd kv)) < 2 ^ 31 - 1)%Z) raw).
  { unfold raw. apply Forall_map. eapply Forall_impl; [|exact v13]. cbv beta. cbn [snd]. intros kv (_ & H1 & H2).
    rewrite (per_cell_concat _ _ H1). auto. }
  assert (Hkc : dkeys raw = dkeys (g_cdata m)).
  { unfold raw, dkeys. rewrite map_map. reflexivity. }
  destruct (mapM_exists (fun kv => put_data_binary c8 "NodeData" (fst kv) (components (snd kv)) (snd kv)) (g_pdata m)) as (pd & Hpd).
  { intros kv Hin. apply put_data_total. rewrite Forall_forall in Hrp. now apply Hrp. }
  destruct (mapM_exists (fun kv => put_data_binary c8 "ElementData" (fst kv) (components (snd kv)) (snd kv)) raw) as (cd & Hcd).
  { intros kv Hin. apply put_data_total. rewrite Forall_forall in Hrc. now apply Hrc. }
  unfold write22_bin, write_elements_bin. rewrite blocks_numbers_ok by now rewrite block_tags_fst. cbn [bind].
  rewrite Hpd. cbn [bind]. rewrite Wr. cbn [bind]. rewrite Hcd. cbn [bind].
  fold (ints (concat (blocks_rows 0 (block_tags m)))).
  set (np := length (g_points m)).
  assert (Hc3 : Forall (fun p => length p = 3) (map pad3 (g_points m))).
  { apply Forall_map. eapply Forall_impl; [|exact v2]. cbn. intros [|a [|b [|c [|]]]] [H|H]; try discriminate; reflexivity. }
  set (td := group_tags (map (fun e => (e_type e, e_tags e)) (blocks_elements 0 (block_tags m)))).
  set (fin := fun nm => RState (node_tags np) (map pad3 (g_points m)) (merged m) (tag_column 0 td) (tag_column 1 td)
                        nm (g_periodic m) (g_pdata m) raw).
  set (per := match g_periodic m with Some ps => text_bytes (write_periodic ps) | None => [] end).
  set (tail := write_nodes_bin c8 (g_points m) ++ (text_bytes ["$Elements"%string; str_of_nat (sum_nat (map blen (g_cells m)))] ++
       ints (concat (blocks_rows 0 (block_tags m))) ++ closing_binary "Elements") ++ per ++ concat pd ++ concat cd).
  assert (T : forall nm, exists n, bruns tail (RState [] [] [] [] [] nm None [] []) (fin nm) n).
  { intros nm. unfold tail.
    assert (P3 : exists n, bruns (concat pd ++ concat cd)
       (RState (node_tags np) (map pad3 (g_points m)) (merged m) (tag_column 0 td) (tag_column 1 td) nm (g_periodic m) [] []) (fin nm) n).
    { destruct (cell_data_bruns raw cd [] (RState (node_tags np) (map pad3 (g_points m)) (merged m) (tag_column 0 td) (tag_column 1 td) nm (g_periodic m) (g_pdata m) [])
                 (fin nm) 0 Hcd) as (n1 & R1).
      { now rewrite Hkc. } { exact Hrc. }
      { cbn [s_tags s_points s_cells s_phys s_geom s_names s_periodic s_pdata s_craw].
        rewrite dupdate_nil by now rewrite Hkc. constructor. }
      rewrite app_nil_r in R1.
      apply (node_data_bruns (g_pdata m) pd (concat cd) _ (fin nm) n1 Hpd v10' Hrp).
      cbn [s_tags s_points s_cells s_phys s_geom s_names s_periodic s_pdata s_craw]. now rewrite dupdate_nil. }
    assert (P2 : exists n, bruns (per ++ concat pd ++ concat cd)
       (RState (node_tags np) (map pad3 (g_points m)) (merged m) (tag_column 0 td) (tag_column 1 td) nm None [] []) (fin nm) n).
    { destruct P3 as (n3 & R3). unfold per. destruct (g_periodic m) as [ps|] eqn:Ep; [|exists n3; exact R3].
      exists (S n3). pose proof (periodic_one_line ps) as Ho.
      change (write_periodic ps) with (("$" ++ "Periodic")%string :: tl (write_periodic ps)).
      rewrite text_bytes_cons, <- app_assoc.
      eapply (bruns_cons "Periodic"); [reflexivity| | |exact R3].
      - apply Forall_app. split; [apply text_bytes_byte|apply (bruns_byte _ _ _ _ R3)].
      - unfold read_section_bin. cbn [String.eqb Ascii.eqb Bool.eqb].
        rewrite (by_lines_ok read_periodic _ _ ps); [reflexivity| |apply (bruns_byte _ _ _ _ R3)|].
        + inversion Ho; assumption.
        + apply (read_periodic_ok Hfl). now apply v9. }
    assert (P1 : exists n, bruns ((text_bytes ["$Elements"%string; str_of_nat (sum_nat (map blen (g_cells m)))] ++
       ints (concat (blocks_rows 0 (block_tags m))) ++ closing_binary "Elements") ++ per ++ concat pd ++ concat cd)
       (RState (node_tags np) (map pad3 (g_points m)) [] [] [] nm None [] []) (fin nm) n).
    { destruct P2 as (n2 & R2). exists (S n2). set (rest := per ++ concat pd ++ concat cd) in *.
      pose proof (bruns_byte _ _ _ _ R2) as Hbr.
      change "$Elements"%string with ("$" ++ "Elements")%string. rewrite text_bytes_cons, <- !app_assoc.
      pose proof (read_elements_bin_ok m rest Hm Hb Hbr) as E. cbv zeta in E. fold td np in E.
      replace (text_bytes [str_of_nat (sum_nat (map blen (g_cells m)))] ++ ints (concat (blocks_rows 0 (block_tags m))) ++
        closing_binary "Elements" ++ rest) with ((text_bytes [str_of_nat (sum_nat (map blen (g_cells m)))] ++
        ints (concat (blocks_rows 0 (block_tags m))) ++ closing_binary "Elements") ++ rest) in * by now rewrite <- !app_assoc.
      eapply (bruns_cons "Elements"); [reflexivity| | |exact R2].
      - apply Forall_app. split; [|exact Hbr]. apply Forall_app. split; [apply text_bytes_byte|].
        apply Forall_app. split; [apply ints_byte|apply closing_byte].
      - unfold read_section_bin. cbn [String.eqb Ascii.eqb Bool.eqb]. rewrite E. reflexivity. }
    destruct P1 as (n1 & R1). exists (S n1).
    set (rest := (text_bytes ["$Elements"%string; _] ++ _) ++ _) in *.
    pose proof (bruns_byte _ _ _ _ R1) as Hbr.
    pose proof (read_nodes_bin_ok (map pad3 (g_points m)) rest Hc3) as E. rewrite map_length in E. fold np in E.
    specialize (E ltac:(unfold np; lia) Hbr).
    unfold write_nodes_bin. fold np. change "$Nodes"%string with ("$" ++ "Nodes")%string. rewrite text_bytes_cons, <- !app_assoc.
    change (concat (map (fun kp : nat * list fl => int_bytes CInt (Z.of_nat (fst kp + 1)) ++ concat (map (enc c8) (snd kp))) (enumerate (map pad3 (g_points m)))))
      with (concat (map (record_bytes c8) (enumerate (map pad3 (g_points m))))).
    replace (text_bytes [str_of_nat np] ++ concat (map (record_bytes c8) (enumerate (map pad3 (g_points m)))) ++ closing_binary "Nodes" ++ rest)
      with ((text_bytes [str_of_nat np] ++ concat (map (record_bytes c8) (enumerate (map pad3 (g_points m)))) ++ closing_binary "Nodes") ++ rest) in *
      by now rewrite <- !app_assoc.
    eapply (bruns_cons "Nodes"); [reflexivity| | |exact R1].
    - apply Forall_app. split; [|exact Hbr]. apply Forall_app. split; [apply text_bytes_byte|].
      apply Forall_app. split; [apply Forall_concat_bytes, Forall_map, Forall_forall; intros; now apply record_byte|apply closing_byte].
    - unfold read_section_bin. cbn [String.eqb Ascii.eqb Bool.eqb]. rewrite E. reflexivity. }
  assert (B : exists names n, (forall k, dget k names = dget k (g_names m)) /\
     bruns (text_bytes (write_physical_names (g_names m)) ++ tail) rstate0 (fin names) n).
  { destruct (g_names m) as [|e es] eqn:En.
    - destruct (T []) as (n & R). exists [], n. split; auto.
    - destruct (T []) as (n0 & R0). pose proof (bruns_byte _ _ _ _ R0) as Hbr.
      destruct (ok_names _ _ _ (binary_port_ok c8 Hc) (e :: es) tail) as (u & fd & E1 & E2 & E3 & E4 & _); auto; [discriminate|].
      cbn [binary_port text opening get_names] in E1, E2. destruct (T fd) as (n & R). exists fd, (S n). split; auto.
      assert (E2' : by_lines (read_physical_names []) (@app N u tail) = Ok (fd, tail)) by exact E2.
      rewrite E1, <- app_assoc. eapply (bruns_cons "PhysicalNames" u); [reflexivity|exact E3| |exact R].
      unfold read_section_bin, rstate0. cbn [String.eqb Ascii.eqb Bool.eqb]. rewrite E2'. reflexivity. }
  destruct B as (names & n & Hnames & R).
  eexists _, names. split; [reflexivity|]. split; [exact Hnames|].
  unfold read22_file. pose proof (ok_header _ _ _ (binary_port_ok c8 Hc) "2.2"%string _ eq_refl (bruns_byte _ _ _ _ R)) as Eh.
  assert (Eh' : get_header_binary (@app N (header_binary "2.2") (text_bytes (write_physical_names (g_names m)) ++ tail)) =
    Ok ("2.2"%string, text_bytes (write_physical_names (g_names m)) ++ tail)) by exact Eh.
  fold tail. rewrite Eh'. cbn [bind fst snd]. rewrite String.eqb_refl.
  unfold read22_bin. rewrite (bruns_read22 _ _ _ _ R). cbn [bind]. now apply finish22_ok.
Qed.
End File.
