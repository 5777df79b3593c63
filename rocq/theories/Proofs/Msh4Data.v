(** Sections with data in the MSH 4 files of Gmsh. *)
From Coq Require Import ZArith NArith List String Ascii Bool Lia ZifyBool ZifyNat ZifyN.
From Verif.Lib Require Import Base Facts Facts2 Text TextFacts Lines LinesFacts Runs Perm Bytes BytesFacts File.
From Verif.Model Require Import Core Gmsh Gmsh22 Port Msh41 Msh40.
From Verif.Spec Require Import Core Blocks Gmsh Gmsh22 Msh41 Msh40 GmshFile Msh2File Msh40File Msh4Data.
From Verif.Proofs Require Import Core CoreMisc Vtu Gmsh Gmsh22 Gmsh22File Port Msh41 Msh41File Msh40 GmshFile Msh2File Msh40File.
Import Model.Gmsh Model.Port Model.Msh41 Model.Msh40 Spec.Msh41 Spec.Msh40.
Import ListNotations.
Local Open Scope list_scope.

Lemma dupdate_fresh {V} (l : dict V) : NoDup (dkeys l) -> dupdate [] l = l.
Proof.
  assert (G : forall l d : dict V, NoDup (dkeys (d ++ l)) -> dupdate d l = d ++ l).
  { clear. induction l as [|[k v] l IH]; intros d H; [cbn; now rewrite app_nil_r|]. unfold dupdate. cbn [fold_left fst snd].
    assert (E : dset k v d = d ++ [(k, v)]).
    { apply dset_notin. unfold dkeys in *. rewrite map_app in H. cbn [map fst] in H. apply NoDup_remove_2 in H. intros Hi. apply H. apply in_or_app. now left. }
    rewrite E. change (dupdate (d ++ [(k, v)]) l = d ++ (k, v) :: l). rewrite IH; rewrite <- app_assoc; [reflexivity|exact H]. }
  intros H. exact (G l [] H).
Qed.

Section Data.
Context {fl : floats}.
Hypothesis Hfl : floats_ok fl.
Implicit Types (d : node_data fl) (ds : list (bool * node_data fl)).

Lemma data_section_read k d dd rest : plain_name (nd_name d) /\ (exists nc, In nc [1; 3; 9] /\ Forall (fun r => length (snd r) = nc) (nd_rows d)) ->
  read_data (kind_of k) dd (tl (data_section (kind_of k) d) ++ rest) = Ok (dset (nd_name d) (map snd (nd_rows d)) dd, rest).
Proof.
  intros [(Hn & _) (nc & Hnc & Hr)]. unfold data_section.
  assert (Hw : Forall (fun r => length (snd r) = width (nd_rows d)) (nd_rows d)).
  { destruct (nd_rows d) as [|r rows]; [constructor|]. inversion Hr; subst. exact Hr. }
  set (w := width (nd_rows d)) in *. clearbody w.
  cbn [app tl]. unfold read_data. cbn [line1 hd tl app].
  change (int_line "1") with (@Ok Z 1%Z). cbn [bind]. change (Z.to_nat 1) with 1.
  cbn [read_lines line1 hd tl bind fst snd].
  change (int_line "1") with (@Ok Z 1%Z). cbn [bind]. change (Z.to_nat 1) with 1.
  cbn [read_lines line1 hd tl bind fst snd].
  change (int_line "3") with (@Ok Z 3%Z). cbn [bind]. change (Z.to_nat 3) with 3.
  cbn [read_lines line1 hd tl bind fst snd].
  assert (Es : int_line (str_of_Z (nd_step d)) = Ok (nd_step d)).
  { unfold int_line. rewrite strip_word by apply word_str_of_Z. now rewrite parse_Z_str_of_Z. }
  rewrite Es. cbn [bind]. rewrite !int_line_nat. cbn [bind fst snd nth_error of_option].
  rewrite !Nat2Z.id, <- app_assoc.
  set (trows := map (fun kr : Z * list fl => str_of_Z (fst kr) :: map ffmt (snd kr)) (nd_rows d)).
  assert (El : map Spec.Msh2File.node_line (nd_rows d) = map row_line trows) by (unfold trows; now rewrite map_map).
  rewrite El.
  assert (Hlen : Forall (fun r => length r = S w) trows).
  { apply Forall_map. eapply Forall_impl; [|exact Hw]. intros r E. cbn [length]. now rewrite map_length, E. }
  assert (Hlc : length (concat trows) = length (nd_rows d) * S w).
  { rewrite (concat_uniform_length (S w)) by auto. unfold trows. rewrite map_length. lia. }
  rewrite take_rows with (rows := trows); auto.
  2: { apply solid_cons. now destruct k. }
  2: { apply Forall_map, Forall_forall. intros r _. split; [|discriminate]. cbn [forallb]. now rewrite word_str_of_Z, words_floats. }
  cbn [of_option bind fst snd].
  rewrite (chunks_concat (S w)) by (auto; lia).
  assert (Hp : mapM (fun r => @parse_floats fl (tl r)) trows = Ok (map snd (nd_rows d))).
  { unfold trows. clear - Hfl. induction (nd_rows d) as [|[i r] l IH]; [reflexivity|].
    cbn [map mapM tl snd fst]. rewrite parse_floats_ok by auto. cbn [bind]. now rewrite IH. }
  rewrite Hp. cbn [bind hd_error of_option]. rewrite unquote_quoted by auto. cbn [app]. rewrite skip_to_here by (now destruct k). reflexivity.
Qed.

Lemma data_leads ds : forall a b c e f pd cr, Forall (fun kd => data_ok (snd kd)) ds ->
  leads (ascii_port (fl := fl)) solid (data_part ds) (State41 a b c e f pd cr)
    (State41 a b c e f (dupdate pd (arrays true ds)) (dupdate cr (arrays false ds))).
Proof.
  induction ds as [|[k d] ds IH]; intros a b c e f pd cr H; [apply (leads_nil _ _ _ (ascii_port_ok Hfl))|].
  inversion H as [|? ? Hd H']; subst. cbn [snd] in Hd. unfold data_part. cbn [flat_map fst snd].
  change (data_section (kind_of k) d ++ flat_map (fun kd => data_section (kind_of (fst kd)) (snd kd)) ds)
    with (opening (ascii_port (fl := fl)) (kind_of k) ++ tl (data_section (kind_of k) d) ++ data_part ds).
  eapply (leads_cons _ _ _ (ascii_port_ok Hfl)).
  - now destruct k.
  - unfold data_section. cbn [tl app]. apply solid_cons. reflexivity.
  - assert (G := data_section_read k d (if k then pd else cr) (data_part ds) (conj (proj1 Hd) (proj2 (proj2 Hd)))).
    instantiate (1 := State41 a b c e f (if k then dset (nd_name d) (map snd (nd_rows d)) pd else pd) (if k then cr else dset (nd_name d) (map snd (nd_rows d)) cr)).
    destruct k; cbn [kind_of] in *.
    + exact (f_equal (fun x => bind x (fun r => Ok (State41 a b c e f (fst r) cr, snd r))) G).
    + exact (f_equal (fun x => bind x (fun r => Ok (State41 a b c e f pd (fst r), snd r))) G).
  - destruct k; exact (IH a b c e f _ _ H').
Qed.

Theorem file_with_data g ds : gfile_ok g -> Forall (fun kd => data_ok (snd kd)) ds ->
  kind_ok true (length (gnode_tags (gf_nodes g))) ds -> kind_ok false (length (flat_map gl_rows (gf_elements g))) ds ->
  exists names, (forall k, dget k names = dget k (gf_names g)) /\
    read41 ascii_port (gmsh_file ascii_port g ++ data_part ds) =
      if groups_agree g then Ok (with_data (file_mesh g names) (arrays true ds) (by_block g (arrays false ds))) else Err ValueError.
Proof.
  intros W H [N1 L1] [N2 L2]. apply (gmsh_file_tail ascii_port _ _ (ascii_port_ok Hfl)); auto.
  intros a b c e f. pose proof (data_leads ds a b c e f [] [] H) as G. now rewrite !dupdate_fresh in G by assumption.
Qed.

(** The same for version 4.0. *)
Lemma data_leads40 ds : forall a b c e f pd cr, Forall (fun kd => data_ok (snd kd)) ds ->
  leads40 (ascii_port (fl := fl)) solid (data_part ds) (State40 a b c e f pd cr)
    (State40 a b c e f (dupdate pd (arrays true ds)) (dupdate cr (arrays false ds))).
Proof.
  induction ds as [|[k d] ds IH]; intros a b c e f pd cr H; [apply (leads40_nil _ _ _ (ascii_port_ok Hfl))|].
  inversion H as [|? ? Hd H']; subst. cbn [snd] in Hd. unfold data_part. cbn [flat_map fst snd].
  change (data_section (kind_of k) d ++ flat_map (fun kd => data_section (kind_of (fst kd)) (snd kd)) ds)
    with (opening (ascii_port (fl := fl)) (kind_of k) ++ tl (data_section (kind_of k) d) ++ data_part ds).
  eapply (leads40_cons _ _ _ (ascii_port_ok Hfl)).
  - now destruct k.
  - unfold data_section. cbn [tl app]. apply solid_cons. reflexivity.
  - assert (G := data_section_read k d (if k then pd else cr) (data_part ds) (conj (proj1 Hd) (proj2 (proj2 Hd)))).
    instantiate (1 := State40 a b c e f (if k then dset (nd_name d) (map snd (nd_rows d)) pd else pd) (if k then cr else dset (nd_name d) (map snd (nd_rows d)) cr)).
    destruct k; cbn [kind_of] in *.
    + exact (f_equal (fun x => bind x (fun r => Ok (State40 a b c e f (fst r) cr, snd r))) G).
    + exact (f_equal (fun x => bind x (fun r => Ok (State40 a b c e f pd (fst r), snd r))) G).
  - destruct k; exact (IH a b c e f _ _ H').
Qed.

Theorem file_with_data40 g ds : gfile40_ok g -> (forall ks, gf_links g = Some ks -> Forall glink40_ok ks /\ in_range CInt (Z.of_nat (length ks))) ->
  Forall (fun kd => data_ok (snd kd)) ds ->
  kind_ok true (length (gnode_tags (gf_nodes g))) ds -> kind_ok false (length (flat_map gl_rows (gf_elements g))) ds ->
  exists names, (forall k, dget k names = dget k (gf_names g)) /\
    read40 ascii_port (gmsh_file40 ascii_port g ++ data_part ds) =
      if groups_agree g then Ok (with_data40 (file_mesh40 g names) (arrays true ds) (by_block g (arrays false ds))) else Err ValueError.
Proof.
  intros W K H [N1 L1] [N2 L2]. apply (gmsh_file40_tail ascii_port _ _ (ascii_port_ok Hfl) (ascii_gnodes Hfl)); auto.
  - intros ks E. destruct (K ks E) as [K1 K2]. apply (ascii_periodic Hfl); [|now rewrite map_length].
    apply Forall_map. eapply Forall_impl; [|exact K1]. apply glink40_plain.
  - intros a b c e f. pose proof (data_leads40 ds a b c e f [] [] H) as G. now rewrite !dupdate_fresh in G by assumption.
  - apply Forall_map. apply Forall_forall. intros kd Hin. apply filter_In in Hin. destruct Hin as [Hin _].
    rewrite Forall_forall in H. destruct (H _ Hin) as (_ & Hr & _). cbn [fst]. intros Hx. apply Hr. unfold reserved. now right.
Qed.
End Data.

Section Binary.
Context {F : Type} (c8 : codec F).
Hypothesis Hc : codec_ok c8.
Implicit Types (d : bdata F) (ds : list (bool * bdata F)).

Definition bhead d : list string :=
  ["1"; quoted (bd_name d); "1"; bd_time d; "3"; str_of_Z (bd_step d); str_of_nat (bwidth (bd_rows d)); str_of_nat (length (bd_rows d))]%string.
Definition bbody (k : bool) d : bytes := text_bytes (bhead d) ++ concat (map (nbytes c8) (bd_rows d)) ++ closing_binary (kind_of k).
Lemma bsection_split k d : bdata_section c8 (kind_of k) d = opening (binary_port c8) (kind_of k) ++ bbody k d.
Proof.
  assert (Et : forall x l, text_bytes (x :: l) = text_bytes [x] ++ text_bytes l).
  { intros x l. unfold text_bytes. cbn [map concat]. now rewrite app_nil_r. }
  unfold bdata_section, bbody. cbn [binary_port opening]. rewrite Et. fold (bhead d). rewrite <- app_assoc. reflexivity.
Qed.
Lemma bhead_read d rest : plain_name (bd_name d) ->
  read_data_header (bhead d ++ rest) = Ok ((bd_name d, Z.of_nat (bwidth (bd_rows d)), Z.of_nat (length (bd_rows d))), rest).
Proof.
  intros (Hn & _). unfold read_data_header, bhead. cbn [tl app line1 hd].
  change (int_line "1") with (@Ok Z 1%Z). cbn [bind]. change (Z.to_nat 1) with 1.
  cbn [read_lines line1 hd tl bind fst snd].
  change (int_line "1") with (@Ok Z 1%Z). cbn [bind]. change (Z.to_nat 1) with 1.
  cbn [read_lines line1 hd tl bind fst snd].
  change (int_line "3") with (@Ok Z 3%Z). cbn [bind]. change (Z.to_nat 3) with 3.
  cbn [read_lines line1 hd tl bind fst snd].
  assert (Es : int_line (str_of_Z (bd_step d)) = Ok (bd_step d)).
  { unfold int_line. rewrite strip_word by apply word_str_of_Z. now rewrite parse_Z_str_of_Z. }
  rewrite Es. cbn [bind]. rewrite !int_line_nat. cbn [bind fst snd nth_error of_option hd_error]. now rewrite unquote_quoted.
Qed.
Lemma nbytes_byte n : Forall is_byte (nbytes c8 n).
Proof.
  unfold nbytes. apply Forall_app. split; [apply int_bytes_byte|]. apply Forall_concat_bytes, Forall_map, Forall_forall. intros; apply Hc.
Qed.
Lemma bbody_byte k d rest : Forall is_byte rest -> Forall is_byte (bbody k d ++ rest).
Proof.
  intros H. unfold bbody. rewrite <- !app_assoc. apply Forall_app. split; [apply text_bytes_byte|]. apply Forall_app.
  split; [apply Forall_concat_bytes, Forall_map, Forall_forall; intros; apply nbytes_byte|]. apply Forall_app. split; [apply closing_byte|exact H].
Qed.
Lemma bbody_read k d dd rest : bdata_ok d -> numbered d -> Forall is_byte rest ->
  get_data_binary c8 (kind_of k) dd (bbody k d ++ rest) = Ok (dset (bd_name d) (map snd (bd_rows d)) dd, rest).
Proof.
  intros (Hn & _ & Ht & Hl & nc & Hnc & Hr) Hnum Hg. unfold get_data_binary, bbody. rewrite <- !app_assoc.
  assert (Hw : Forall (fun r => length (snd r) = bwidth (bd_rows d)) (bd_rows d)).
  { destruct (bd_rows d) as [|r rows]; [constructor|]. inversion Hr; subst. exact Hr. }
  assert (G1 : Forall is_byte (concat (map (nbytes c8) (bd_rows d)) ++ closing_binary (kind_of k) ++ rest)).
  { apply Forall_app. split; [apply Forall_concat_bytes, Forall_map, Forall_forall; intros; apply nbytes_byte|].
    apply Forall_app. split; [apply closing_byte|exact Hg]. }
  rewrite (by_lines_ok read_data_header) with (x := (bd_name d, Z.of_nat (bwidth (bd_rows d)), Z.of_nat (length (bd_rows d)))).
  - cbn [bind fst snd]. rewrite !Nat2Z.id.
    assert (Hb : Forall (fun x => length x = 4 + 8 * bwidth (bd_rows d)) (map (nbytes c8) (bd_rows d))).
    { apply Forall_map. eapply Forall_impl; [|exact Hw]. intros r E. unfold nbytes. rewrite app_length, int_bytes_length.
      rewrite (concat_uniform_length 8) by (apply Forall_map, Forall_forall; intros; apply Hc). rewrite map_length, E. reflexivity. }
    assert (T : take_items (4 + 8 * bwidth (bd_rows d)) (length (bd_rows d)) (concat (map (nbytes c8) (bd_rows d)) ++ closing_binary (kind_of k) ++ rest) =
                (map (nbytes c8) (bd_rows d), closing_binary (kind_of k) ++ rest)).
    { rewrite <- (take_items_ok (4 + 8 * bwidth (bd_rows d)) _ (closing_binary (kind_of k) ++ rest)) with (2 := Hb) by lia. now rewrite map_length. }
    rewrite T. cbn [fst snd].
    assert (I : map (fun b => int_of_bytes CInt (firstn 4 b)) (map (nbytes c8) (bd_rows d)) = map (fun k => Z.of_nat (k + 1)) (seq 0 (length (bd_rows d)))).
    { rewrite <- Hnum, map_map. apply map_ext_in. intros r Hin. apply nbytes_index.
      assert (Hi : In (fst r) (map fst (bd_rows d))) by now apply in_map. rewrite Hnum in Hi. apply in_map_iff in Hi. destruct Hi as (i & <- & Hi).
      apply in_seq in Hi. cbn [in_range]. lia. }
    rewrite I, index_check. rewrite map_length, seq_length, Nat.eqb_refl. cbn [andb].
    rewrite map_map. rewrite (map_ext _ snd) by (intros; now apply nbytes_values).
    rewrite skip_end_ok; [reflexivity|now destruct k|exact Hg].
  - unfold bhead. repeat (constructor; [first [reflexivity | exact Ht | apply one_line_nat | apply one_line_Z | now apply one_line_quoted]|]). constructor.
  - exact G1.
  - now apply bhead_read.
Qed.

Lemma bdata_leads ds : forall a b c e f pd cr, Forall (fun kd => bdata_ok (snd kd) /\ numbered (snd kd)) ds ->
  leads (binary_port c8) (Forall is_byte) (bdata_part c8 ds) (State41 a b c e f pd cr)
    (State41 a b c e f (dupdate pd (barrays true ds)) (dupdate cr (barrays false ds))).
Proof.
  induction ds as [|[k d] ds IH]; intros a b c e f pd cr H; [apply (leads_nil _ _ _ (binary_port_ok c8 Hc))|].
  inversion H as [|? ? [Hd Hn] H']; subst. cbn [snd] in Hd, Hn. unfold bdata_part. cbn [flat_map fst snd].
  rewrite bsection_split, <- app_assoc. fold (bdata_part c8 ds).
  set (st := State41 a b c e f (if k then dset (bd_name d) (map snd (bd_rows d)) pd else pd) (if k then cr else dset (bd_name d) (map snd (bd_rows d)) cr)).
  assert (L : leads (binary_port c8) (Forall is_byte) (bdata_part c8 ds) st
    (State41 a b c e f (dupdate pd (barrays true ((k, d) :: ds))) (dupdate cr (barrays false ((k, d) :: ds))))).
  { unfold st. destruct k; exact (IH a b c e f _ _ H'). }
  eapply (leads_cons _ _ _ (binary_port_ok c8 Hc)); [now destruct k|apply bbody_byte; exact (proj1 L)| |exact L].
  assert (G := bbody_read k d (if k then pd else cr) (bdata_part c8 ds) Hd Hn (proj1 L)). unfold st.
  destruct k; cbn [kind_of] in *.
  + exact (f_equal (fun x => bind x (fun r => Ok (State41 a b c e f (fst r) cr, snd r))) G).
  + exact (f_equal (fun x => bind x (fun r => Ok (State41 a b c e f pd (fst r), snd r))) G).
Qed.
Theorem file_with_bdata g ds : gfile_ok g -> Forall (fun kd => bdata_ok (snd kd) /\ numbered (snd kd)) ds ->
  bkind_ok true (length (gnode_tags (gf_nodes g))) ds -> bkind_ok false (length (flat_map gl_rows (gf_elements g))) ds ->
  exists names, (forall k, dget k names = dget k (gf_names g)) /\
    read41 (binary_port c8) (gmsh_file (binary_port c8) g ++ bdata_part c8 ds) =
      if groups_agree g then Ok (with_data (file_mesh g names) (barrays true ds) (by_block g (barrays false ds))) else Err ValueError.
Proof.
  intros W H [N1 L1] [N2 L2]. apply (gmsh_file_tail (binary_port c8) _ _ (binary_port_ok c8 Hc)); auto.
  intros a b c e f. pose proof (bdata_leads ds a b c e f [] [] H) as G. now rewrite !dupdate_fresh in G by assumption.
Qed.
(** Other tags. *)
Lemma index_check_inv (l : list Z) : forallb (fun kz => Z.eqb (snd kz) (Z.of_nat (fst kz + 1))) (enumerate l) = true ->
  l = map (fun k => Z.of_nat (k + 1)) (seq 0 (length l)).
Proof.
  assert (G : forall k, forallb (fun kz => Z.eqb (snd kz) (Z.of_nat (fst kz + 1))) (combine (seq k (length l)) l) = true ->
    l = map (fun k => Z.of_nat (k + 1)) (seq k (length l))).
  { induction l as [|z l IH]; intros k H; [reflexivity|]. cbn [length seq combine forallb map fst snd] in *.
    apply andb_true_iff in H. destruct H as [H1 H2]. apply Z.eqb_eq in H1. rewrite <- H1. f_equal. now apply IH. }
  exact (G 0).
Qed.
Lemma bbody_fails k d dd rest : bdata_ok d -> Forall (fun r => in_range CInt (fst r)) (bd_rows d) -> ~ numbered d -> Forall is_byte rest ->
  get_data_binary c8 (kind_of k) dd (bbody k d ++ rest) = Err ReadError.
Proof.
  intros (Hn & _ & Ht & Hl & nc & Hnc & Hr) Htags Hnum Hg. unfold get_data_binary, bbody. rewrite <- !app_assoc.
  assert (Hw : Forall (fun r => length (snd r) = bwidth (bd_rows d)) (bd_rows d)).
  { destruct (bd_rows d) as [|r rows]; [constructor|]. inversion Hr; subst. exact Hr. }
  assert (G1 : Forall is_byte (concat (map (nbytes c8) (bd_rows d)) ++ closing_binary (kind_of k) ++ rest)).
  { apply Forall_app. split; [apply Forall_concat_bytes, Forall_map, Forall_forall; intros; apply nbytes_byte|].
    apply Forall_app. split; [apply closing_byte|exact Hg]. }
  rewrite (by_lines_ok read_data_header) with (x := (bd_name d, Z.of_nat (bwidth (bd_rows d)), Z.of_nat (length (bd_rows d)))).
  - cbn [bind fst snd]. rewrite !Nat2Z.id.
    assert (Hb : Forall (fun x => length x = 4 + 8 * bwidth (bd_rows d)) (map (nbytes c8) (bd_rows d))).
    { apply Forall_map. eapply Forall_impl; [|exact Hw]. intros r E. unfold nbytes. rewrite app_length, int_bytes_length.
      rewrite (concat_uniform_length 8) by (apply Forall_map, Forall_forall; intros; apply Hc). rewrite map_length, E. reflexivity. }
    assert (T : take_items (4 + 8 * bwidth (bd_rows d)) (length (bd_rows d)) (concat (map (nbytes c8) (bd_rows d)) ++ closing_binary (kind_of k) ++ rest) =
                (map (nbytes c8) (bd_rows d), closing_binary (kind_of k) ++ rest)).
    { rewrite <- (take_items_ok (4 + 8 * bwidth (bd_rows d)) _ (closing_binary (kind_of k) ++ rest)) with (2 := Hb) by lia. now rewrite map_length. }
    rewrite T. cbn [fst snd].
    assert (I : map (fun b => int_of_bytes CInt (firstn 4 b)) (map (nbytes c8) (bd_rows d)) = map fst (bd_rows d)).
    { rewrite map_map. apply map_ext_in. intros r Hin. apply nbytes_index. rewrite Forall_forall in Htags. auto. }
    rewrite I.
    destruct (forallb (fun kz => Z.eqb (snd kz) (Z.of_nat (fst kz + 1))) (enumerate (map fst (bd_rows d)))) eqn:Ei; [|reflexivity].
    exfalso. apply Hnum. unfold numbered. apply index_check_inv in Ei. rewrite map_length in Ei. exact Ei.
  - unfold bhead. repeat (constructor; [first [reflexivity | exact Ht | apply one_line_nat | apply one_line_Z | now apply one_line_quoted]|]). constructor.
  - exact G1.
  - now apply bhead_read.
Qed.
Lemma bdata_part_byte ds : Forall is_byte (bdata_part c8 ds).
Proof.
  induction ds as [|[k d] ds IH]; [constructor|]. unfold bdata_part. cbn [flat_map fst snd]. rewrite bsection_split, <- app_assoc.
  apply Forall_app. split; [apply text_bytes_byte|]. now apply bbody_byte.
Qed.
Lemma bdata_stops ds : forall a b c e f pd cr,
  Forall (fun kd => bdata_ok (snd kd) /\ Forall (fun r => in_range CInt (fst r)) (bd_rows (snd kd))) ds -> Exists (fun kd => ~ numbered (snd kd)) ds ->
  ends (binary_port c8) (Forall is_byte) (bdata_part c8 ds) (State41 a b c e f pd cr) (Err ReadError).
Proof.
  induction ds as [|[k d] ds IH]; intros a b c e f pd cr H Hx; [inversion Hx|].
  inversion H as [|? ? [Hd Ht] H']; subst. cbn [snd] in Hd, Ht. pose proof (bdata_part_byte ds) as Hb.
  unfold bdata_part. cbn [flat_map fst snd]. rewrite bsection_split, <- app_assoc. fold (bdata_part c8 ds).
  destruct (list_eq_dec Z.eq_dec (map fst (bd_rows d)) (map (fun k => Z.of_nat (k + 1)) (seq 0 (length (bd_rows d))))) as [Hn|Hn].
  - eapply (ends_cons _ _ _ (binary_port_ok c8 Hc)); [now destruct k|now apply bbody_byte| |].
    + assert (G := bbody_read k d (if k then pd else cr) (bdata_part c8 ds) Hd Hn Hb).
      instantiate (1 := State41 a b c e f (if k then dset (bd_name d) (map snd (bd_rows d)) pd else pd) (if k then cr else dset (bd_name d) (map snd (bd_rows d)) cr)).
      destruct k; cbn [kind_of] in *.
      * exact (f_equal (fun x => bind x (fun r => Ok (State41 a b c e f (fst r) cr, snd r))) G).
      * exact (f_equal (fun x => bind x (fun r => Ok (State41 a b c e f pd (fst r), snd r))) G).
    + apply IH; [exact H'|]. inversion Hx as [? ? Q|]; subst; [contradiction|assumption].
  - apply (ends_fails _ _ _ (binary_port_ok c8 Hc)); [now destruct k|now apply bbody_byte|].
    assert (G := bbody_fails k d (if k then pd else cr) (bdata_part c8 ds) Hd Ht Hn Hb).
    destruct k; cbn [kind_of] in *.
    + exact (f_equal (fun x => bind x (fun r => Ok (State41 a b c e f (fst r) cr, snd r))) G).
    + exact (f_equal (fun x => bind x (fun r => Ok (State41 a b c e f pd (fst r), snd r))) G).
Qed.
Theorem file_with_bdata_stops g ds : gfile_ok g ->
  Forall (fun kd => bdata_ok (snd kd) /\ Forall (fun r => in_range CInt (fst r)) (bd_rows (snd kd))) ds -> Exists (fun kd => ~ numbered (snd kd)) ds ->
  read41 (binary_port c8) (gmsh_file (binary_port c8) g ++ bdata_part c8 ds) = Err ReadError.
Proof.
  intros W H Hx. apply (gmsh_file_stops (binary_port c8) _ _ (binary_port_ok c8 Hc)); auto. intros. now apply bdata_stops.
Qed.

Lemma bdata_leads40 ds : forall a b c e f pd cr, Forall (fun kd => bdata_ok (snd kd) /\ numbered (snd kd)) ds ->
  leads40 (binary_port c8) (Forall is_byte) (bdata_part c8 ds) (State40 a b c e f pd cr)
    (State40 a b c e f (dupdate pd (barrays true ds)) (dupdate cr (barrays false ds))).
Proof.
  induction ds as [|[k d] ds IH]; intros a b c e f pd cr H; [apply (leads40_nil _ _ _ (binary_port_ok c8 Hc))|].
  inversion H as [|? ? [Hd Hn] H']; subst. cbn [snd] in Hd, Hn. unfold bdata_part. cbn [flat_map fst snd].
  rewrite bsection_split, <- app_assoc. fold (bdata_part c8 ds).
  set (st := State40 a b c e f (if k then dset (bd_name d) (map snd (bd_rows d)) pd else pd) (if k then cr else dset (bd_name d) (map snd (bd_rows d)) cr)).
  assert (L : leads40 (binary_port c8) (Forall is_byte) (bdata_part c8 ds) st
    (State40 a b c e f (dupdate pd (barrays true ((k, d) :: ds))) (dupdate cr (barrays false ((k, d) :: ds))))).
  { unfold st. destruct k; exact (IH a b c e f _ _ H'). }
  eapply (leads40_cons _ _ _ (binary_port_ok c8 Hc)); [now destruct k|apply bbody_byte; exact (proj1 L)| |exact L].
  assert (G := bbody_read k d (if k then pd else cr) (bdata_part c8 ds) Hd Hn (proj1 L)). unfold st.
  destruct k; cbn [kind_of] in *.
  + exact (f_equal (fun x => bind x (fun r => Ok (State40 a b c e f (fst r) cr, snd r))) G).
  + exact (f_equal (fun x => bind x (fun r => Ok (State40 a b c e f pd (fst r), snd r))) G).
Qed.
Theorem file_with_bdata40 g ds : gfile40_ok g -> gf_links g = None -> Forall (fun kd => bdata_ok (snd kd) /\ numbered (snd kd)) ds ->
  bkind_ok true (length (gnode_tags (gf_nodes g))) ds -> bkind_ok false (length (flat_map gl_rows (gf_elements g))) ds ->
  exists names, (forall k, dget k names = dget k (gf_names g)) /\
    read40 (binary_port c8) (gmsh_file40 (binary_port c8) g ++ bdata_part c8 ds) =
      if groups_agree g then Ok (with_data40 (file_mesh40 g names) (barrays true ds) (by_block g (barrays false ds))) else Err ValueError.
Proof.
  intros W K H [N1 L1] [N2 L2]. apply (gmsh_file40_tail (binary_port c8) _ _ (binary_port_ok c8 Hc) (binary_gnodes c8 Hc)); auto.
  - rewrite K. discriminate.
  - intros a b c e f. pose proof (bdata_leads40 ds a b c e f [] [] H) as G. now rewrite !dupdate_fresh in G by assumption.
  - apply Forall_map. apply Forall_forall. intros kd Hin. apply filter_In in Hin. destruct Hin as [Hin _].
    rewrite Forall_forall in H. destruct (H _ Hin) as ((_ & Hr & _) & _). cbn [fst]. intros Hx. apply Hr. unfold reserved. now right.
Qed.
End Binary.
