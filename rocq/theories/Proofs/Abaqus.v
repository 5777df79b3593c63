(** Abaqus files. *)
From Verif.Lib Require Import Base Facts Facts2 Text TextFacts Lines LinesFacts BytesFacts.
From Verif.Model Require Import Core Abaqus.
From Verif.Spec Require Import Core Blocks Abaqus.
From Verif.Proofs Require Import Gmsh Gmsh22 Blocks AbaqusLines.
From Coq Require Import ZifyBool ZifyNat.
Local Arguments str_of_nat : simpl never.
Local Arguments str_of_Z : simpl never.
Local Arguments keyword : simpl never.

(** ** Ids *)
Lemma zget_In {V} (d : zdict V) k v : NoDup (map fst d) -> In (k, v) d -> zget k d = Some v.
Proof.
  induction d as [|[k' v'] d IH]; [intros _ []|]. cbn [map fst In zget]. intros Hn Hi. inversion Hn as [|? ? Hk Hn']; subst.
  destruct (Z.eqb_spec k k') as [->|Hne].
  - destruct Hi as [E|Hi]; [now injection E as <-|]. destruct Hk. change k' with (fst (k', v)). now apply in_map.
  - destruct Hi as [E|Hi]; [congruence|auto].
Qed.
Lemma zget_None {V} (d : zdict V) k : ~ In k (map fst d) -> zget k d = None.
Proof.
  induction d as [|[k' v'] d IH]; [reflexivity|]. cbn [map fst In zget]. intros H. destruct (Z.eqb_spec k k') as [->|]; [destruct H; auto|]. apply IH. tauto.
Qed.
Lemma id_map_keys ids : map fst (id_map ids) = rev ids.
Proof. unfold id_map. rewrite map_rev. f_equal. rewrite map_fst_combine; [reflexivity|]. now rewrite seq_length. Qed.
Lemma id_map_get ids i z : NoDup ids -> nth_error ids i = Some z -> zget z (id_map ids) = Some i.
Proof.
  intros Hn Hi. apply zget_In; [rewrite id_map_keys; now apply NoDup_rev|]. unfold id_map. rewrite <- in_rev.
  assert (H : nth_error (combine ids (seq 0 (length ids))) i = Some (z, i)).
  { clear Hn. assert (G : forall k, nth_error (combine ids (seq k (length ids))) i = Some (z, k + i)); [|apply (G 0)].
    revert i Hi; induction ids as [|a ids IH]; intros [|i] Hi k; cbn in *; try discriminate.
    - injection Hi as ->. now rewrite Nat.add_0_r.
    - rewrite IH by auto. do 2 f_equal. lia. }
  now apply nth_error_In in H.
Qed.
Lemma id_map_none ids z : ~ In z ids -> zget z (id_map ids) = None.
Proof. intros H. apply zget_None. rewrite id_map_keys. now rewrite <- in_rev. Qed.
Definition pos (ids : list Z) (z : Z) : Z := match zget z (id_map ids) with Some k => Z.of_nat k | None => 0%Z end.
Lemma pos_get ids z : NoDup ids -> In z ids -> exists k, zget z (id_map ids) = Some k /\ pos ids z = Z.of_nat k /\ nth_error ids k = Some z.
Proof.
  intros Hn Hi. apply In_nth_error in Hi. destruct Hi as [k Hk]. exists k. unfold pos. rewrite (id_map_get ids k z Hn Hk). auto.
Qed.
Lemma pos_all ids zs : NoDup ids -> Forall (fun z => In z ids) zs ->
  mapM (fun i => do k <- of_option KeyError (zget i (id_map ids)); Ok (Z.of_nat k)) zs = Ok (map (pos ids) zs).
Proof.
  intros Hn H. induction H as [|z zs Hz H IH]; [reflexivity|]. cbn [mapM map]. destruct (pos_get ids z Hn Hz) as (k & -> & -> & _).
  cbn [of_option bind]. now rewrite IH.
Qed.

(** ** Sections *)
Lemma concat_map_inv {A B} (f : A -> B) L : forall l, concat L = map f l -> exists M, L = map (map f) M /\ concat M = l.
Proof.
  induction L as [|x L IH]; intros l E; cbn [concat] in E.
  - destruct l; [|discriminate]. now exists [].
  - symmetry in E. apply map_eq_app in E. destruct E as (l1 & l2 & -> & E1 & E2). destruct (IH l2 (eq_sym E2)) as (M & -> & E3).
    exists (l1 :: M). cbn. now rewrite E1, E3.
Qed.
Lemma entries_cons d ds : entries (d :: ds) = line_entries d ++ entries ds.
Proof. reflexivity. Qed.

(** Lines of integers. *)
Definition int_row (d : data_line) : Prop := match d with Row _ _ es => es <> [] /\ exists zs, es = map str_of_Z zs | Blank _ => True end.
Lemma int_rows_of ds M : Forall nonempty_row ds -> entries ds = map (map str_of_Z) M -> Forall int_row ds.
Proof.
  revert M; induction ds as [|d ds IH]; intros M Hn E; [constructor|]. inversion Hn as [|? ? Hd Hn']; subst. rewrite entries_cons in E.
  destruct d as [n|pad comma es]; cbn [line_entries app] in E.
  - constructor; [exact I|]. eapply IH; eauto.
  - destruct M as [|m M]; [discriminate|]. cbn [map] in E. injection E as E1 E2. constructor; [split; [exact Hd|eauto]|]. eapply IH; eauto.
Qed.
Lemma int_row_no_star ds : Forall int_row ds -> Forall (fun l => startswith l "*" = false) (map line_text ds).
Proof.
  intros H. apply Forall_map. eapply Forall_impl; [|exact H]. intros [n|pad comma es]; [intros _; apply blank_no_star|].
  cbn [int_row]. intros [Hne [zs ->]]. destruct zs as [|z zs]; [destruct (Hne eq_refl)|]. cbn [map]. apply row_no_star, str_head.
Qed.
Lemma parse_all M : mapM parse_ints (map (map str_of_Z) M) = Ok M.
Proof. induction M as [|m M IH]; [reflexivity|]. cbn [map mapM]. rewrite parse_ints_ok. cbn [bind]. now rewrite IH. Qed.
Lemma cell_lines_ok ds M : Forall nonempty_row ds -> entries ds = map (map str_of_Z) M ->
  mapM cell_line (nonblank (map line_text ds)) = Ok M.
Proof.
  intros Hn E. rewrite (rows_read cell_line int_row parse_ints ds).
  - rewrite E. apply parse_all.
  - intros pad comma es [Hne [zs ->]]. split; [apply row_nonblank; [exact Hne|apply plain_ints]|].
    rewrite cell_line_ok by (intros ->; apply Hne; reflexivity). symmetry. apply parse_ints_ok.
  - eapply int_rows_of; eauto.
Qed.
Definition set_row (d : data_line) : Prop := match d with Row _ _ es => exists z zs, es = map str_of_Z (z :: zs) /\ (0 <= z)%Z | Blank _ => True end.
Lemma set_lines_ok ds M : entries ds = map (map str_of_Z) M -> Forall (fun m => m <> [] /\ Forall (fun z => 0 <= z)%Z m) M ->
  mapM set_line (nonblank (map line_text ds)) = Ok (map inl M) /\ Forall int_row ds.
Proof.
  intros E HM. assert (Hs : Forall set_row ds /\ Forall int_row ds).
  { clear - E HM. revert M E HM; induction ds as [|d ds IH]; intros M E HM; [split; constructor|]. rewrite entries_cons in E.
    destruct d as [n|pad comma es]; cbn [line_entries app] in E.
    - destruct (IH M E HM). split; constructor; auto; exact I.
    - destruct M as [|m M]; [discriminate|]. cbn [map] in E. injection E as E1 E2. inversion HM as [|? ? [Hm Hp] HM']; subst.
      destruct (IH M E2 HM'). destruct m as [|z m]; [congruence|]. inversion Hp; subst. split; constructor; auto.
      + exists z, m. auto.
      + split; [discriminate|eauto]. }
  destruct Hs as [Hs Hi]. split; [|exact Hi].
  rewrite (rows_read set_line set_row (fun es => do l <- parse_ints es; Ok (inl l)) ds); [|intros pad comma es (z & zs & -> & Hz)|exact Hs].
  - rewrite E. clear. induction M as [|m M IH]; [reflexivity|]. cbn [map mapM]. rewrite parse_ints_ok. cbn [bind]. now rewrite IH.
  - split; [apply row_nonblank; [discriminate|apply plain_ints]|]. rewrite set_line_ok by auto. now rewrite parse_ints_ok.
Qed.

Section File.
Context {fl : floats}.
Hypothesis fok : floats_ok fl.
Hypothesis fcomma : forall v : fl, char_in "," (ffmt v) = false.
Variable include : string -> result (abq_mesh fl).

Lemma plain_float (v : fl) : plain (ffmt v).
Proof. split; [apply fok|apply fcomma]. Qed.
Definition node_entries (n : Z * list fl) : list string := str_of_Z (fst n) :: map ffmt (snd n).
Lemma plain_node n : Forall plain (node_entries n).
Proof. constructor; [apply plain_str_of_Z|]. apply Forall_map, Forall_forall. intros v _. apply plain_float. Qed.
Lemma node_line_ok pad n : node_line (line_text (Row pad false (node_entries n))) = Ok n.
Proof.
  destruct (row_split pad false (node_entries n)) as (ps & H1 & _ & H3 & _ & H5); [discriminate|apply plain_node|].
  unfold node_line. rewrite H5. cbn [tail_entry]. rewrite app_nil_r. destruct ps as [|p ps]; [congruence|]. unfold node_entries in H1. inversion H1 as [|? ? ? ? Hp Hps]; subst.
  rewrite (py_int_padded p (fst n) Hp). cbn [bind].
  assert (E : mapM (fun t => of_option ValueError (fparse (strip t))) ps = Ok (snd n)).
  { clear - Hps fok. revert Hps. generalize (snd n). induction ps as [|p ps IH]; intros xs H; destruct xs as [|x xs]; inversion H as [|? ? ? ? Hp Hr]; subst; [reflexivity|].
    cbn [mapM]. rewrite (strip_padded _ _ Hp) by apply fok. rewrite (proj2 (fok x)). cbn [of_option bind]. now rewrite (IH xs Hr). }
  rewrite E. now destruct n.
Qed.
Definition node_row (d : data_line) : Prop := match d with Row _ comma es => comma = false /\ exists n, es = node_entries n | Blank _ => True end.
Definition parse_node (es : list string) : result (Z * list fl) :=
  match es with [] => Err IndexError | e :: es' => do i <- of_option ValueError (parse_Z e); do xs <- parse_floats es'; Ok (i, xs) end.
Lemma parse_node_ok n : parse_node (node_entries n) = Ok n.
Proof. unfold parse_node, node_entries. rewrite parse_Z_str_of_Z. cbn [of_option bind]. rewrite parse_floats_ok by auto. now destruct n. Qed.
Lemma node_rows_of ds nodes : Forall no_comma ds -> entries ds = map node_entries nodes -> Forall node_row ds.
Proof.
  revert nodes; induction ds as [|d ds IH]; intros nodes Hn E; [constructor|]. inversion Hn as [|? ? Hd Hn']; subst. rewrite entries_cons in E.
  destruct d as [n|pad comma es]; cbn [line_entries app] in E.
  - constructor; [exact I|]. eapply IH; eauto.
  - destruct nodes as [|m M]; [discriminate|]. cbn [map] in E. injection E as E1 E2. constructor; [split; [exact Hd|eauto]|]. eapply IH; eauto.
Qed.
Lemma node_row_no_star ds : Forall node_row ds -> Forall (fun l => startswith l "*" = false) (map line_text ds).
Proof.
  intros H. apply Forall_map. eapply Forall_impl; [|exact H]. intros [n|pad comma es]; [intros _; apply blank_no_star|].
  intros [_ [n ->]]. apply row_no_star, str_head.
Qed.
Lemma read_nodes_ok ds nodes d : Forall no_comma ds -> entries ds = map node_entries nodes -> Forall (fun n => length (snd n) = d) nodes ->
  read_nodes (map line_text ds) = Ok (map snd nodes, id_map (map fst nodes)).
Proof.
  intros Hn E Hd. unfold read_nodes. rewrite (rows_read node_line node_row parse_node ds).
  - rewrite E. assert (Em : mapM parse_node (map node_entries nodes) = Ok nodes).
    { clear - fok. induction nodes as [|n ns IH]; [reflexivity|]. cbn [map mapM]. rewrite parse_node_ok. cbn [bind]. now rewrite IH. }
    rewrite Em. cbn [bind].
    assert (Ef : forallb (fun x => Nat.eqb (length (snd x)) (length (snd (hd (0%Z, []) nodes)))) nodes = true).
    { apply forallb_forall. intros x Hx. apply Nat.eqb_eq. rewrite Forall_forall in Hd. rewrite (Hd x Hx). destruct nodes as [|n ns]; [destruct Hx|]. cbn. now rewrite (Hd n (or_introl eq_refl)). }
    now rewrite Ef.
  - intros pad comma es [-> [n ->]]. split; [apply row_nonblank; [discriminate|apply plain_node]|]. now rewrite node_line_ok, parse_node_ok.
  - eapply node_rows_of; eauto.
Qed.

Lemma chunk_rows {A} k (rows : list (list A)) : 0 < k -> Forall (fun r => length r = k) rows -> chunks k (concat rows) = rows.
Proof. intros Hk H. now apply chunks_concat. Qed.

Lemma read_cells_ok s ct n ids :
  dget (e_type s) abaqus_to_meshio_type = Some ct -> dget ct num_nodes_per_cell = Some n ->
  Forall (fun e => length (snd e) = n) (e_elems s) -> Forall nonempty_row (e_lines s) ->
  concat (entries (e_lines s)) = flat_map (fun e => map str_of_Z (fst e :: snd e)) (e_elems s) ->
  NoDup ids -> Forall (fun e => Forall (fun z => In z ids) (snd e)) (e_elems s) ->
  read_cells (map line_text (e_lines s)) (e_type s) (id_map ids) =
    Ok (Block ct (map (fun e => map (pos ids) (snd e)) (e_elems s)), id_map (map fst (e_elems s))) /\
  Forall (fun l => startswith l "*" = false) (map line_text (e_lines s)).
Proof.
  intros Hct Hn Hl Hr He Hids Hin.
  assert (E1 : flat_map (fun e : Z * list Z => map str_of_Z (fst e :: snd e)) (e_elems s) = map str_of_Z (concat (map (fun e => fst e :: snd e) (e_elems s)))).
  { clear. induction (e_elems s) as [|e l IH]; [reflexivity|]. cbn [map concat]. rewrite map_app, <- IH. reflexivity. }
  rewrite E1 in He. apply concat_map_inv in He. destruct He as (M & EM & Ec). split; [|apply int_row_no_star; eapply int_rows_of; eauto].
  unfold read_cells. rewrite Hct. cbn [of_option bind]. rewrite Hn. cbn [of_option bind]. rewrite (cell_lines_ok _ M Hr EM). cbn [bind]. rewrite Ec.
  assert (Hw : Forall (fun r => length r = n + 1) (map (fun e : Z * list Z => fst e :: snd e) (e_elems s))).
  { apply Forall_map. eapply Forall_impl; [|exact Hl]. cbn. intros e ->. lia. }
  assert (Elen : length (concat (map (fun e : Z * list Z => fst e :: snd e) (e_elems s))) mod (n + 1) = 0).
  { rewrite (concat_uniform_length (n + 1)) by auto. rewrite Nat.mul_comm. apply Nat.mod_mul. lia. }
  rewrite Elen. cbn [Nat.eqb negb]. rewrite chunk_rows by (auto; lia). rewrite map_map. cbn [hd].
  assert (Em : mapM (fun r => mapM (fun i => do k <- of_option KeyError (zget i (id_map ids)); Ok (Z.of_nat k)) (tl r)) (map (fun e : Z * list Z => fst e :: snd e) (e_elems s)) =
    Ok (map (fun e => map (pos ids) (snd e)) (e_elems s))).
  { clear - Hids Hin. induction Hin as [|e l He H IH]; [reflexivity|]. cbn [map mapM tl]. rewrite pos_all by auto. cbn [bind]. now rewrite IH. }
  rewrite Em. cbn [bind]. do 2 f_equal.
Qed.

(** ** The loop *)
Definition fresh (ls : list string) : Prop := match ls with [] => True | l :: _ => startswith l "*" = true end.
Definition reach (st : abq_state fl) (ls : list string) (st' : abq_state fl) (ls' : list string) : Prop :=
  forall fuel, length ls <= fuel -> exists fuel', length ls' <= fuel' /\ abq_loop include fuel st ls = abq_loop include fuel' st' ls'.
Lemma reach_refl st ls : reach st ls st ls.
Proof. intros fuel H. eauto. Qed.
Lemma reach_trans st1 l1 st2 l2 st3 l3 : reach st1 l1 st2 l2 -> reach st2 l2 st3 l3 -> reach st1 l1 st3 l3.
Proof. intros H1 H2 fuel Hf. destruct (H1 fuel Hf) as (f2 & Hf2 & ->). apply H2. exact Hf2. Qed.
Lemma reach_end st ls st' : reach st ls st' [] -> abq_loop include (length ls) st ls = Ok st'.
Proof. intros H. destruct (H (length ls) (le_n _)) as (f & _ & ->). destruct f; reflexivity. Qed.

Lemma span_data_ok data rest : Forall (fun l => startswith l "*" = false) data -> fresh rest -> span_data (data ++ rest) = (data, rest).
Proof.
  intros H Hf. induction H as [|l data Hl H IH]; cbn [app].
  - destruct rest as [|l rest]; [reflexivity|]. cbn [span_data]. cbn in Hf. now rewrite Hf.
  - cbn [span_data]. rewrite Hl, IH. reflexivity.
Qed.
Lemma reach_section st line data rest st' :
  startswith line "**" = false -> Forall (fun l => startswith l "*" = false) data -> fresh rest ->
  section include st line data = Ok (st', true) -> reach st (line :: data ++ rest) st' rest.
Proof.
  intros Hs Hd Hf Hsec fuel Hfuel. cbn [length] in Hfuel. destruct fuel as [|fuel]; [lia|]. exists fuel. split; [rewrite app_length in Hfuel; lia|].
  cbn [abq_loop]. rewrite Hs, span_data_ok by auto. cbn [fst snd]. now rewrite Hsec.
Qed.
Definition skipped (l : string) : Prop :=
  startswith l "**" = true \/ ~ In (keyword l) ["NODE"; "ELEMENT"; "NSET"; "ELSET"; "INCLUDE"].
Lemma reach_skip st l rest : skipped l -> reach st (l :: rest) st rest.
Proof.
  intros H fuel Hf. cbn [length] in Hf. destruct fuel as [|fuel]; [lia|]. exists fuel. split; [lia|]. cbn [abq_loop].
  destruct (startswith l "**") eqn:E; [reflexivity|]. destruct H as [H|H]; [congruence|]. unfold section. cbn [In] in H.
  repeat match goal with |- context [String.eqb (keyword l) ?k] => destruct (String.eqb_spec (keyword l) k) as [Ek|_]; [destruct H; rewrite Ek; tauto|] end.
  reflexivity.
Qed.
Lemma reach_skips st pre rest : Forall skipped pre -> reach st (pre ++ rest) st rest.
Proof. induction 1 as [|l pre Hl H IH]; [apply reach_refl|]. cbn [app]. eapply reach_trans; [apply reach_skip; exact Hl|exact IH]. Qed.

Definition with_nodes (nodes : list (Z * list fl)) (st : abq_state fl) : abq_state fl :=
  AbqState (map snd nodes) (Some (id_map (map fst nodes))) (as_cells st) (as_cell_ids st) (as_psets st) (as_csets st) (as_esets st) (as_eorder st).
Lemma reach_nodes st ds nodes d rest : Forall no_comma ds -> entries ds = map node_entries nodes -> Forall (fun n => length (snd n) = d) nodes -> fresh rest ->
  reach st ("*NODE" :: map line_text ds ++ rest) (with_nodes nodes st) rest.
Proof.
  intros H1 H2 H3 H4. apply reach_section; auto.
  - apply node_row_no_star. eapply node_rows_of; eauto.
  - unfold section. change (keyword "*NODE") with "NODE". cbn [String.eqb]. rewrite (read_nodes_ok ds nodes d) by auto. reflexivity.
Qed.

Lemma param_one kw key v K : char_in "," kw = false -> char_in "=" kw = false -> char_in "," key = false -> char_in "=" key = false ->
  set_name v -> upper (strip (String " " key)) = K -> String.eqb K (upper (strip kw)) = false ->
  param_map (kw ++ String "," (String " " (key ++ String "=" v)))%string [K] = Ok [(upper (strip kw), None); (K, Some v)].
Proof.
  intros H1 H2 H3 H4 (Hv1 & Hv2 & Hv3) HK Hne. unfold param_map. rewrite split_char_app by auto. rewrite split_char_single.
  2:{ cbn [char_in]. rewrite char_in_app, H3. cbn [char_in]. now rewrite Hv2. }
  cbn [mapM]. unfold param_word at 1. rewrite H2. cbn [negb bind]. unfold param_word.
  assert (Ec : char_in "=" (String " " (key ++ String "=" v)) = true) by (cbn [char_in]; rewrite char_in_app; cbn [char_in]; rewrite Ascii.eqb_refl; now rewrite !orb_true_r).
  rewrite Ec. cbn [negb].
  change (String " " (key ++ String "=" v))%string with ((String " " key) ++ String "=" v)%string. rewrite split_char_app by (cbn [char_in]; now rewrite H4).
  rewrite split_char_single by auto. rewrite HK, Hv1. cbn [bind fold_left fst snd dset]. rewrite Hne. unfold dmem. cbn [forallb dget]. rewrite Hne, String.eqb_refl. reflexivity.
Qed.
Lemma abaqus_type_name t ct : dget t abaqus_to_meshio_type = Some ct -> set_name t.
Proof.
  intros H. apply dget_In in H. assert (G : forallb (fun kv => String.eqb (strip (fst kv)) (fst kv) && negb (char_in "," (fst kv)) && negb (char_in "=" (fst kv))) abaqus_to_meshio_type = true) by now vm_compute.
  rewrite forallb_forall in G. specialize (G _ H). cbn [fst] in G. apply andb_true_iff in G. destruct G as [G G3]. apply andb_true_iff in G. destruct G as [G1 G2].
  apply String.eqb_eq in G1. apply negb_true_iff in G2, G3. repeat split; auto.
Qed.

Definition with_block (b : block) (ids : zdict nat) (st : abq_state fl) : abq_state fl :=
  AbqState (as_points st) (as_ids st) (as_cells st ++ [b]) (as_cell_ids st ++ [ids]) (as_psets st) (as_csets st) (as_esets st) (as_eorder st).
Lemma reach_element st s ct n ids rest :
  dget (e_type s) abaqus_to_meshio_type = Some ct -> dget ct num_nodes_per_cell = Some n ->
  Forall (fun e => length (snd e) = n) (e_elems s) -> Forall nonempty_row (e_lines s) ->
  concat (entries (e_lines s)) = flat_map (fun e => map str_of_Z (fst e :: snd e)) (e_elems s) ->
  NoDup ids -> Forall (fun e => Forall (fun z => In z ids) (snd e)) (e_elems s) ->
  as_ids st = Some (id_map ids) -> fresh rest ->
  reach st (esection_text s ++ rest) (with_block (Block ct (map (fun e => map (pos ids) (snd e)) (e_elems s))) (id_map (map fst (e_elems s))) st) rest.
Proof.
  intros H1 H2 H3 H4 H5 H6 H7 H8 H9. destruct (read_cells_ok s ct n ids H1 H2 H3 H4 H5 H6 H7) as [Er Hd].
  unfold esection_text. cbn [app]. apply reach_section; auto.
  unfold section. assert (Ek : keyword ("*ELEMENT, TYPE=" ++ e_type s) = "ELEMENT").
  { unfold keyword. change ("*ELEMENT, TYPE=" ++ e_type s)%string with ("*ELEMENT" ++ String "," (String " " ("TYPE" ++ String "=" (e_type s))))%string. rewrite split_char_app by reflexivity. reflexivity. }
  rewrite Ek. cbn [String.eqb Ascii.eqb Bool.eqb]. rewrite H8. cbn [of_option bind].
  change ("*ELEMENT, TYPE=" ++ e_type s)%string with ("*ELEMENT" ++ String "," (String " " ("TYPE" ++ String "=" (e_type s))))%string.
  rewrite (param_one "*ELEMENT" "TYPE" (e_type s) "TYPE") by (first [reflexivity | eapply abaqus_type_name; eauto]). cbn [bind].
  change (upper (strip "*ELEMENT")) with "*ELEMENT".
  change (param "TYPE" [("*ELEMENT", None); ("TYPE", Some (e_type s))]) with (e_type s).
  change (dget "ELSET" [("*ELEMENT", None); ("TYPE", Some (e_type s))]) with (@None (option string)).
  rewrite Er. cbn [bind]. unfold with_block. rewrite H8. reflexivity.
Qed.
End File.
