(** Binary FLAC3D files. *)
From Coq Require Import NArith.
From Verif.Lib Require Import Base Facts Facts2 Text TextFacts Lines LinesFacts Bytes BytesFacts File.
From Verif.Model Require Import Core Info Tables Snoc Abaqus Flac3d.
From Verif.Spec Require Import Core Blocks Flac3d.
From Verif.Proofs Require Import Blocks Gmsh22 Gmsh22File Info Abaqus Snoc Xdmf Vtu AbaqusFile Flac3d Flac3dSets Flac3dFile.
From Coq Require Import ZifyBool ZifyNat ZifyN.

(** ** Numbers *)
Lemma take_raw_app w a b : length a = w -> take_raw w (a ++ b) = Ok (a, b).
Proof.
  intros H. unfold take_raw. rewrite app_length, H. destruct (Nat.ltb_spec (w + length b) w); [lia|].
  now rewrite (firstn_exact a b w), (skipn_exact a b w).
Qed.
Lemma unpack_pack w z b rest : pack w z = Ok b -> unpack w (b ++ rest) = Ok (z, rest).
Proof.
  unfold pack. destruct (_ && _) eqn:E; [|discriminate]. intros H. assert (Hb : b = uint_bytes false w (Z.to_N z)) by congruence. subst b. clear H. unfold unpack.
  rewrite take_raw_app by apply uint_bytes_length. cbn [bind fst snd]. rewrite uint_value_bytes by lia. do 2 f_equal. lia.
Qed.
Lemma pack_range w z b : pack w z = Ok b -> (0 <= z)%Z.
Proof. unfold pack. destruct (_ && _) eqn:E; [|discriminate]. lia. Qed.

(** Chunks of bytes, one for every item. *)
Definition chunked {A} (p : bytes -> result (A * bytes)) (xs : list A) (b : bytes) : Prop :=
  forall rest, read_n p (length xs) (b ++ rest) = Ok (xs, rest).
Lemma chunked_nil {A} (p : bytes -> result (A * bytes)) : chunked p [] [].
Proof. intros rest. reflexivity. Qed.
Lemma chunked_cons {A} (p : bytes -> result (A * bytes)) x xs b bs :
  (forall rest, p (b ++ rest) = Ok (x, rest)) -> chunked p xs bs -> chunked p (x :: xs) (b ++ bs).
Proof. intros H1 H2 rest. cbn [length read_n]. rewrite <- app_assoc, H1. cbn [bind fst snd]. rewrite (H2 rest). reflexivity. Qed.
Lemma chunked_app {A} (p : bytes -> result (A * bytes)) xs ys b c : chunked p xs b -> chunked p ys c -> chunked p (xs ++ ys) (b ++ c).
Proof.
  revert b. induction xs as [|x xs IH]; intros b H1 H2 rest.
  - assert (b = []). { specialize (H1 []). cbn in H1. rewrite app_nil_r in H1. congruence. } subst. apply H2.
  - specialize (H1 (c ++ rest)). cbn [length read_n app] in *. rewrite <- app_assoc.
    destruct (p (b ++ c ++ rest)) as [[y r]|]; [|discriminate]. cbn [bind fst snd] in *.
    destruct (read_n p (length xs) r) as [[ys' r']|] eqn:E; [|discriminate]. cbn [bind fst snd] in H1. injection H1 as -> -> ->.
    clear IH. rewrite app_length.
    assert (G : forall n m r xs' r', read_n p n r = Ok (xs', r') -> read_n p (n + m) r = (do q <- read_n p m r'; Ok (xs' ++ fst q, snd q))).
    { clear. induction n as [|n IH]; intros m r xs' r' H; cbn [read_n Nat.add] in *.
      - injection H as <- <-. destruct (read_n p m r) as [[? ?]|]; reflexivity.
      - destruct (p r) as [[y s]|]; [|discriminate]. cbn [bind fst snd] in *. destruct (read_n p n s) as [[ys t]|] eqn:E; [|discriminate].
        cbn [bind fst snd] in H. injection H as <- <-. rewrite (IH m _ _ _ E). destruct (read_n p m t) as [[? ?]|]; reflexivity. }
    rewrite (G _ (length ys) _ _ _ E). rewrite (H2 rest). reflexivity.
Qed.

Lemma packs_chunked zs b : packs 4 zs = Ok b -> chunked (unpack 4) zs b.
Proof.
  unfold packs. destruct (mapM (pack 4) zs) as [bs|] eqn:E; [|discriminate]. cbn [bind]. intros H. injection H as <-.
  apply mapM_Forall2 in E. induction E as [|z c zs bs Hc _ IH]; [apply chunked_nil|]. cbn [concat]. apply chunked_cons; auto.
  intros rest. now apply unpack_pack.
Qed.
Lemma packs_app w a b r : packs w (a ++ b) = Ok r -> exists ra rb, packs w a = Ok ra /\ packs w b = Ok rb /\ r = ra ++ rb.
Proof.
  unfold packs. intros H. destruct (mapM (pack w) (a ++ b)) as [bs|] eqn:E; [|discriminate]. cbn [bind] in H. injection H as <-.
  apply mapM_Forall2 in E. apply Forall2_app_inv_l in E. destruct E as (b1 & b2 & E1 & E2 & ->).
  apply mapM_Forall2 in E1, E2. exists (concat b1), (concat b2). rewrite E1, E2. cbn [bind]. now rewrite concat_app.
Qed.
Lemma packs_cons w z zs r : packs w (z :: zs) = Ok r -> exists a b, pack w z = Ok a /\ packs w zs = Ok b /\ r = a ++ b.
Proof.
  unfold packs. cbn [mapM]. destruct (pack w z) as [a|]; [|discriminate]. cbn [bind]. destruct (mapM (pack w) zs) as [bs|]; [|discriminate].
  cbn [bind]. intros H. injection H as <-. exists a, (concat bs). auto.
Qed.

Section Binary.
Context {F : Type} (g : geom F) (c8 : codec F).
Hypothesis c8_width : codec_width c8 8.

Lemma real_read x rest : exact c8 x -> take_real c8 (enc c8 x ++ rest) = Ok (x, rest).
Proof. intros H. unfold take_real. rewrite take_raw_app by apply c8_width. cbn [bind fst snd]. now rewrite H. Qed.

Lemma points_chunked (kps : list (nat * list F)) bs : Forall (fun kp => Forall (exact c8) (snd kp)) kps -> mapM (point_bytes c8) kps = Ok bs ->
  chunked (read_point_bin c8) (map (fun kp => (Z.of_nat (S (fst kp)), snd kp)) kps) (concat bs).
Proof.
  intros Hx E. apply mapM_Forall2 in E. induction E as [|[k p] b kps bs Hb _ IH]; [apply chunked_nil|].
  inversion Hx as [|? ? Hp Hps]; subst. cbn [snd fst map concat] in *. apply chunked_cons; [|auto]. clear IH.
  intros rest. unfold point_bytes in Hb. cbn [snd fst] in Hb. destruct p as [|x [|y [|z [|? ?]]]]; try discriminate.
  destruct (pack 4 (Z.of_nat (S k))) as [i|] eqn:Ei; [|discriminate]. cbn [bind] in Hb. injection Hb as <-.
  unfold read_point_bin. rewrite <- !app_assoc. rewrite (unpack_pack _ _ _ _ Ei). cbn [bind fst snd read_n].
  inversion Hp as [|? ? Hx1 Hp1]; subst. inversion Hp1 as [|? ? Hx2 Hp2]; subst. inversion Hp2 as [|? ? Hx3 _]; subst.
  rewrite real_read by auto. cbn [bind fst snd]. rewrite real_read by auto. cbn [bind fst snd]. rewrite real_read by auto. reflexivity.
Qed.

Lemma zones_chunked n (bs : list block) : forall gid b, zone_bytes gid bs = Ok b -> Forall (zone_cell n) (all_cells bs) ->
  chunked (read_cell_bin (map (fun k => Z.of_nat (S k)) (seq 0 n)))
    (combine (map Z.of_nat (seq (S gid) (length (all_cells bs)))) (map snd (all_cells bs))) b.
Proof.
  induction bs as [|b0 bs IH]; intros gid b E H.
  - injection E as <-. apply chunked_nil.
  - cbn [zone_bytes] in E. destruct (packs 4 _) as [d|] eqn:Ed in E; [|discriminate]. cbn [bind] in E.
    destruct (zone_bytes (gid + blen b0) bs) as [r|] eqn:Er; [|discriminate]. cbn [bind] in E. injection E as <-.
    rewrite all_cells_cons in H. apply Forall_app in H. destruct H as [H1 H2]. specialize (IH _ _ Er H2). clear Er H2.
    rewrite all_cells_cons. unfold blen in *. revert gid d Ed H1 IH. generalize (bdata b0). induction l as [|c rows IHr]; intros gid d Ed H1 IH.
    + cbn in Ed. injection Ed as <-. cbn [map app length] in *. rewrite Nat.add_0_r in IH. exact IH.
    + inversion H1 as [|? ? Hc H1']; subst. cbn [length seq combine map concat fst snd app] in *.
      apply packs_cons in Ed. destruct Ed as (a1 & d1 & E1 & Ed & ->). apply packs_cons in Ed. destruct Ed as (a2 & d2 & E2 & Ed & ->).
      apply packs_app in Ed. destruct Ed as (a3 & d3 & E3 & Ed & ->).
      replace ((a1 ++ a2 ++ a3 ++ d3) ++ r) with ((a1 ++ a2 ++ a3) ++ d3 ++ r) by (now rewrite !app_assoc).
      apply chunked_cons.
      * intros rest. unfold read_cell_bin. rewrite <- !app_assoc. rewrite (unpack_pack _ _ _ _ E1). cbn [bind fst snd].
        rewrite (unpack_pack _ _ _ _ E2). cbn [bind fst snd]. unfold unpacks. rewrite Nat2Z.id.
        assert (X := packs_chunked _ _ E3 rest). rewrite map_length in X. rewrite X. cbn [bind fst snd].
        destruct Hc as (s & t & Hs & _ & Hl & Hv). cbn [snd] in *. rewrite resolve_all by auto. cbn [bind].
        destruct (shape_orders _ _ Hs) as (_ & o1 & o2 & q & _ & _ & _ & _ & _ & _ & _ & _ & _ & _ & _ & _ & _ & _ & H7 & _).
        rewrite Hl. destruct (Nat.eqb_spec (sh_corners s) 7); [congruence|]. reflexivity.
      * apply IHr; auto. rewrite Nat.add_succ_comm. exact IH.
Qed.

Lemma update_all_ok n l : forall bs, Forall (zone_cell n) l -> update_all flac3d_zone_nodes bs (map snd l) = Ok (fold_left (fun bs tc => snoc_cell bs (fst tc) (snd tc)) l bs).
Proof.
  induction l as [|[t c] l IH]; intros bs H; [reflexivity|]. inversion H as [|? ? Hc Hl]; subst. cbn [map update_all fold_left fst snd].
  destruct Hc as (s & t0 & Hs & Ht & Hn & _). cbn [fst snd] in *. subst t.
  destruct (shape_orders _ _ Hs) as (_ & o1 & o2 & q & _ & _ & _ & _ & _ & _ & _ & _ & _ & _ & _ & _ & _ & Zn & _).
  unfold update_cells. rewrite Hn, Zn. cbn [of_option bind]. now apply IH.
Qed.

Lemma string_read s rest a : pack 2 (Z.of_nat (String.length s)) = Ok a -> read_string (a ++ string_bytes s ++ rest) = Ok (s, rest).
Proof.
  intros H. unfold read_string. rewrite (unpack_pack _ _ _ _ H). cbn [bind fst snd].
  rewrite take_raw_app by (rewrite string_bytes_length; lia). cbn [bind fst snd]. now rewrite bytes_string_bytes.
Qed.
Lemma groups_chunked (sets : dict (list Z)) bs : mapM group_bytes sets = Ok bs ->
  chunked read_group_bin (map (fun kv => (fst kv, "Default"%string, snd kv)) sets) (concat bs).
Proof.
  intros E. apply mapM_Forall2 in E. induction E as [|[l d] b sets bs Hb _ IH]; [apply chunked_nil|]. cbn [map concat fst snd].
  apply chunked_cons; [|exact IH]. clear IH. intros rest. unfold group_bytes in Hb. cbn [fst snd] in Hb.
  destruct (pack 2 (Z.of_nat (String.length l))) as [a1|] eqn:E1; [|discriminate]. cbn [bind] in Hb.
  destruct (pack 2 7) as [a2|] eqn:E2; [|discriminate]. cbn [bind] in Hb.
  destruct (pack 4 (Z.of_nat (length d))) as [a3|] eqn:E3; [|discriminate]. cbn [bind] in Hb.
  destruct (packs 4 d) as [a4|] eqn:E4; [|discriminate]. cbn [bind] in Hb.
  assert (Hb' : b = a1 ++ string_bytes l ++ a2 ++ string_bytes "Default" ++ a3 ++ a4) by congruence. subst b. clear Hb.
  unfold read_group_bin. rewrite <- !app_assoc. rewrite (string_read _ _ _ E1). cbn [bind fst snd].
  rewrite (string_read "Default" _ _ E2). cbn [bind fst snd]. rewrite (unpack_pack _ _ _ _ E3). cbn [bind fst snd].
  unfold unpacks. rewrite Nat2Z.id. rewrite (packs_chunked _ _ E4 rest). reflexivity.
Qed.

Lemma default_name_inj a b : default_name a = default_name b -> a = b.
Proof. unfold default_name. intros H. apply append_cancel_l in H. now apply append_cancel_r in H. Qed.

Lemma fold_sets (sets : dict (list Z)) : NoDup (map (fun kv => default_name (fst kv)) sets) ->
  fold_left (fun d nsg => let '(n, s, v) := nsg in dset ("zone" ++ ":" ++ n ++ ":" ++ s)%string v d)
    (map (fun kv => (fst kv, "Default"%string, snd kv)) sets) []
  = map (fun kv => (default_name (fst kv), snd kv)) sets.
Proof.
  intros H. assert (E := fold_dset_new (map (fun kv => (default_name (fst kv), snd kv)) sets) []). cbn [app] in E. rewrite <- E.
  - clear. generalize (@nil (string * list Z)). induction sets as [|[k v] sets IH]; intros d; [reflexivity|]. cbn [map fold_left fst snd]. apply IH.
  - unfold dkeys. rewrite map_map. exact H.
  - reflexivity.
Qed.

Lemma section_ok n pids zs nz zb ng gs rest (sets : dict (list Z)) : pids = map (fun k => Z.of_nat (S k)) (seq 0 n) ->
  Forall (zone_cell n) (all_cells zs) -> Forall (fun tc => length (snd tc) = zone_width (fst tc)) (all_cells zs) ->
  pack 4 (Z.of_nat (length (all_cells zs))) = Ok nz -> zone_bytes 0 zs = Ok zb ->
  pack 4 (Z.of_nat (length sets)) = Ok ng -> mapM group_bytes sets = Ok gs -> NoDup (map (fun kv => default_name (fst kv)) sets) ->
  read_section "zone" flac3d_zone_nodes pids (nz ++ zb ++ ng ++ concat gs ++ rest)
  = Ok (map Z.of_nat (seq 1 (length (all_cells zs))), regroup (all_cells zs), map (fun kv => (default_name (fst kv), snd kv)) sets, rest).
Proof.
  intros -> Hc Hw E1 E2 E3 E4 Hn. unfold read_section. rewrite (unpack_pack _ _ _ _ E1). cbn [bind fst snd]. rewrite Nat2Z.id.
  assert (X := zones_chunked n zs 0 zb E2 Hc (ng ++ concat gs ++ rest)).
  rewrite combine_length, !map_length, seq_length, Nat.min_id in X. rewrite X. cbn [bind fst snd].
  rewrite map_snd_combine by (now rewrite !map_length, seq_length). rewrite (update_all_ok n) by auto. cbn [bind].
  rewrite (unpack_pack _ _ _ _ E3). cbn [bind fst snd]. rewrite Nat2Z.id.
  assert (Y := groups_chunked sets gs E4 rest). rewrite map_length in Y. rewrite Y. cbn [bind fst snd].
  rewrite fold_sets by auto. rewrite map_fst_combine by (now rewrite !map_length, seq_length).
  assert (Ef := snoc_fold zone_width (all_cells zs) [] Hw). cbn [regroup app] in Ef. now rewrite Ef.
Qed.

Theorem flac3d_binary (m : flac_in F) b after : Forall (Forall (exact c8)) (fi_points m) ->
  Forall (fun p => length p = 3) (fi_points m) -> Forall (zone_block (length (fi_points m))) (fi_cells m) ->
  NoDup (dkeys (fi_sets m)) -> Forall (fun kv => zone_set (fi_cells m) (snd kv)) (fi_sets m) ->
  write_flac3d_binary g c8 m = Ok (b, after) -> after = sets_after m /\
    let out := regroup (map (zone_seen g (fi_points m)) (all_cells (fi_cells m))) in
    read_flac3d_binary c8 b = Ok (FlacOut (fi_points m) out (data_for out (map Z.of_nat (seq 1 (length (all_cells (fi_cells m))))))
      (sets_seen default_name (fi_cells m) out (fi_sets m))).
Proof.
  intros Hx Hp Hb Hn Hs. set (pts := fi_points m) in *. set (bs := fi_cells m) in *. unfold write_flac3d_binary. fold pts bs.
  destruct (packs 4 [1375135718; 3]%Z) as [h|] eqn:Eh; [|discriminate]. cbn [bind].
  destruct (pack 4 (Z.of_nat (length pts))) as [np|] eqn:Enp; [|discriminate]. cbn [bind].
  destruct (mapM (point_bytes c8) (enumerate pts)) as [pb|] eqn:Epb; [|discriminate]. cbn [bind].
  rewrite (translate_ok g pts bs Hp Hb). cbn [bind]. set (zs := map (block_written g pts) bs).
  assert (El : length (concat (map bdata zs)) = length (all_cells zs)).
  { clear. induction zs as [|b zs IH]; [reflexivity|]. cbn [map concat]. rewrite all_cells_cons, !app_length, map_length. congruence. }
  rewrite El. destruct (pack 4 (Z.of_nat (length (all_cells zs)))) as [nz|] eqn:Enz; [|discriminate]. cbn [bind].
  destruct (zone_bytes 0 zs) as [zb|] eqn:Ezb; [|discriminate]. cbn [bind].
  set (zsl := map (fun kv => (fst kv, written_set bs (snd kv))) (fi_sets m)).
  assert (Ez : zsets m = zsl).
  { unfold zsets. fold bs. destruct bs as [|b1 bs'] eqn:Eb; [|reflexivity]. unfold zsl. destruct (fi_sets m) as [|[k s] S]; [reflexivity|].
    exfalso. inversion Hs as [|? ? [H1 H2] _]; subst. cbn [snd] in *. inversion H1; subst. now apply H2. }
  rewrite Ez. destruct (pack 4 (Z.of_nat (length zsl))) as [ng|] eqn:Eng; [|discriminate]. cbn [bind].
  destruct (mapM group_bytes zsl) as [gs|] eqn:Egs; [|discriminate]. cbn [bind].
  destruct (pack 4 0) as [z0|] eqn:Ez0; [|discriminate]. cbn [bind]. intros H. assert (E' : after = sets_after m) by congruence.
  assert (E : b = h ++ np ++ concat pb ++ nz ++ zb ++ ng ++ concat gs ++ z0 ++ z0) by congruence. clear H. split; [exact E'|].
  cbv zeta. subst b. unfold read_flac3d_binary, unpacks. change 2 with (length [1375135718; 3]%Z). rewrite (packs_chunked _ _ Eh). cbn [bind fst snd].
  rewrite (unpack_pack _ _ _ _ Enp). cbn [bind fst snd]. rewrite Nat2Z.id.
  assert (X := points_chunked (enumerate pts) pb). assert (Hk : Forall (fun kp : nat * list F => Forall (exact c8) (snd kp)) (enumerate pts)).
  { apply Forall_forall. intros [k p] Hin. apply in_combine_r in Hin. rewrite Forall_forall in Hx. now apply Hx. }
  specialize (X Hk Epb (nz ++ zb ++ ng ++ concat gs ++ z0 ++ z0)). rewrite map_length in X.
  assert (Ee : length (enumerate pts) = length pts) by (unfold enumerate; rewrite combine_length, seq_length; lia). rewrite Ee in X. rewrite X. clear X.
  cbn [bind fst snd]. rewrite !map_map. cbn [fst snd].
  assert (Es : map (fun x : nat * list F => snd x) (enumerate pts) = pts) by (unfold enumerate; apply map_snd_combine; now rewrite seq_length).
  rewrite Es.
  assert (Ei : map (fun x : nat * list F => Z.of_nat (S (fst x))) (enumerate pts) = map (fun k => Z.of_nat (S k)) (seq 0 (length pts))).
  { unfold enumerate. rewrite <- (map_map fst (fun k => Z.of_nat (S k))). now rewrite map_fst_combine by now rewrite seq_length. }
  rewrite Ei.
  assert (Hc : Forall (zone_cell (length pts)) (all_cells zs)).
  { unfold zs. rewrite (written_cells g pts bs _ Hb). apply Forall_forall. intros tc Hin. apply in_map_iff in Hin. destruct Hin as ([t c] & <- & Hin).
    destruct (cell_facts g pts bs _ t c Hb Hin) as (s & Hs1 & H1 & H2 & H3). exists s, t. auto. }
  assert (Hw : Forall (fun tc => length (snd tc) = zone_width (fst tc)) (all_cells zs)).
  { unfold zs. rewrite (written_cells g pts bs _ Hb). apply (written_widths g pts bs _ Hb). }
  assert (Hnd : NoDup (map (fun kv : string * list (list Z) => default_name (fst kv)) (fi_sets m))).
  { rewrite <- (map_map fst default_name). apply FinFun.Injective_map_NoDup; [exact default_name_inj|exact Hn]. }
  rewrite (section_ok (length pts) _ zs nz zb ng gs (z0 ++ z0) zsl eq_refl Hc Hw Enz Ezb Eng Egs).
  2:{ unfold zsl. rewrite map_map. exact Hnd. }
  cbn [bind]. unfold read_section. rewrite (unpack_pack _ _ _ _ Ez0). cbn [bind fst snd]. change (Z.to_nat 0) with 0. cbn [read_n bind fst snd update_all map].
  rewrite <- (app_nil_r z0). rewrite (unpack_pack _ _ _ _ Ez0). cbn [bind fst snd]. change (Z.to_nat 0) with 0. cbn [read_n bind fst snd fold_left].
  unfold zs, zsl. rewrite (written_cells g pts bs _ Hb), map_length, map_map. cbn [fst snd].
  apply (assemble_ok g pts _ bs default_name (fi_sets m) (length pts) Hb Hs Hnd).
Qed.
End Binary.
