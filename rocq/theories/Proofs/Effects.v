(** Proofs about the effects of writers on the mesh (C57, C65). *)
From Coq Require Import ZArith List String Ascii Bool Lia.
From Verif.Lib Require Import Base Facts Text TextFacts Lines.
From Verif.Model Require Import Core Flac3d Effects.
From Verif.Spec Require Import Core Effects.
From Verif.Proofs Require Import CoreMisc.
Import ListNotations.

Section Effects.
Context {G : Type} (zero : G).
Notation entry := (entry G).

Lemma two_columns_pad (l : list entry) : two_columns l = true -> two_columns (map (pad_entry zero) l) = false.
Proof.
  destruct l as [|[x|row|ds xs] l]; cbn; try discriminate. intros H. apply Nat.eqb_eq in H.
  rewrite app_length, H. reflexivity.
Qed.
Lemma pad_rows_idem (l : list entry) : pad_rows zero (pad_rows zero l) = pad_rows zero l.
Proof.
  unfold pad_rows. destruct (two_columns l) eqn:E; [|now rewrite E]. now rewrite (two_columns_pad l E).
Qed.
Lemma pad_arr_idem (a : arr entry) : pad_arr zero (pad_arr zero a) = pad_arr zero a.
Proof. destruct a as [l|l]; cbn; [reflexivity|]. now rewrite pad_rows_idem. Qed.
Lemma pad_arr_id (a : arr entry) : pad_arr zero a = a <-> ~ vectors_2d a.
Proof.
  destruct a as [l|l]; cbn; [split; [intros _ (x & y & r & H); discriminate|reflexivity]|].
  unfold pad_rows. destruct (two_columns l) eqn:E.
  - destruct l as [|[x|row|ds xs] l]; cbn in E; try discriminate. apply Nat.eqb_eq in E.
    split.
    + cbn. intros H. injection H as H _. apply (f_equal (@length G)) in H. rewrite app_length in H. cbn in H. lia.
    + intros H. exfalso. apply H. destruct row as [|x [|y [|z row]]]; try discriminate. now exists x, y, l.
  - split; [|reflexivity]. intros _ (x & y & r & H). injection H as ->. discriminate.
Qed.
Lemma pad_data_idem (m : mesh entry) : pad_data zero (pad_data zero m) = pad_data zero m.
Proof.
  unfold pad_data. cbn. f_equal; rewrite map_map; apply map_ext; intros [k a]; cbn; f_equal.
  - apply pad_arr_idem.
  - rewrite map_map. apply map_ext. apply pad_arr_idem.
Qed.
Lemma map_pairs_id {A} (f : A -> A) (d : dict A) :
  map (fun kv => (fst kv, f (snd kv))) d = d <-> (forall k a, In (k, a) d -> f a = a).
Proof.
  induction d as [|[k a] d IH]; cbn; [tauto|]. split.
  - intros H. injection H as Ha Hd. intros k' a' [E|Hin]; [now injection E as <- <-|]. exact (proj1 IH Hd k' a' Hin).
  - intros H. f_equal; [f_equal; apply (H k); now left|]. apply IH. intros k' a' Hin. apply (H k'). now right.
Qed.
Lemma map_id_iff {A} (f : A -> A) l : map f l = l <-> (forall a, In a l -> f a = a).
Proof.
  induction l as [|x l IH]; cbn; [tauto|]. split.
  - intros H. injection H as Ha Hd. intros a [<-|Hin]; [exact Ha|]. exact (proj1 IH Hd a Hin).
  - intros H. f_equal; [apply H; now left|]. apply IH. intros a Hin. apply H. now right.
Qed.
Lemma pad_data_id (m : mesh entry) : pad_data zero m = m <-> no_vectors_2d m.
Proof.
  destruct m as [pts cs pd cd ps ks]. unfold pad_data, no_vectors_2d. cbn. split.
  - intros H. injection H as Hp Hc. split.
    + intros name a Hin. apply pad_arr_id. exact (proj1 (map_pairs_id _ pd) Hp name a Hin).
    + intros name l a Hl Hin. apply pad_arr_id. pose proof (proj1 (map_pairs_id _ cd) Hc name l Hl) as E.
      exact (proj1 (map_id_iff _ l) E a Hin).
  - intros [Hp Hc]. f_equal.
    + apply map_pairs_id. intros k a Hin. apply pad_arr_id. exact (Hp k a Hin).
    + apply map_pairs_id. intros k l Hin. apply map_id_iff. intros a Ha. apply pad_arr_id. exact (Hc k l a Hin Ha).
Qed.

(** ** Sets *)
Lemma converted_points (m m' : mesh entry) : convert_point_sets m = Ok m' ->
  point_sets m' = [] /\ points m' = points m /\ cells m' = cells m /\ cell_data m' = cell_data m /\ cell_sets m' = cell_sets m /\
  (m' = m \/ exists name f, point_data m' = dset name (AInt f) (point_data m)).
Proof.
  unfold convert_point_sets. destruct (point_sets m) as [|p ps] eqn:E.
  - intros H. injection H as <-. repeat split; auto.
  - destruct (set_key _) as [key|] ; cbn; [|discriminate]. unfold point_sets_to_data. rewrite E.
    destruct (set_values _ _) as [f|]; cbn; [|discriminate]. intros H. injection H as <-. cbn. repeat split.
    right. now exists (join key (fst p :: dkeys ps)), f.
Qed.
Lemma converted_cells (m m' : mesh entry) : convert_cell_sets m = Ok m' ->
  cell_sets m' = [] /\ points m' = points m /\ cells m' = cells m /\ point_data m' = point_data m /\ point_sets m' = point_sets m /\
  (m' = m \/ exists name f, cell_data m' = dset name (map AInt f) (cell_data m)).
Proof.
  unfold convert_cell_sets. destruct (cell_sets m) as [|p ps] eqn:E.
  - intros H. injection H as <-. repeat split; auto.
  - destruct (set_key _) as [key|] ; cbn; [|discriminate]. unfold cell_sets_to_data. rewrite E.
    destruct (set_values_blocks _ _) as [f|]; cbn; [|discriminate]. intros H. injection H as <-. cbn. repeat split.
    right. now exists key, f.
Qed.

(** The second conversion has the same outcome and changes nothing. *)
Lemma convert_sets_idem (m : mesh entry) : convert_sets (snd (convert_sets m)) = convert_sets m.
Proof.
  unfold convert_sets, attempt. destruct (convert_point_sets m) as [m1|e] eqn:E1; cbn; [|now rewrite E1].
  destruct (converted_points m m1 E1) as (Ep & _).
  destruct (convert_cell_sets m1) as [m2|e] eqn:E2; cbn.
  - destruct (converted_cells m1 m2 E2) as (Ec & _ & _ & _ & Eps & _).
    unfold convert_point_sets. rewrite Eps, Ep. cbn. unfold convert_cell_sets. now rewrite Ec.
  - unfold convert_point_sets. rewrite Ep. cbn. now rewrite E2.
Qed.
Lemma convert_sets_points (m : mesh entry) : points (snd (convert_sets m)) = points m /\ cells (snd (convert_sets m)) = cells m.
Proof.
  unfold convert_sets, attempt. destruct (convert_point_sets m) as [m1|e] eqn:E1; cbn; [|auto].
  destruct (converted_points m m1 E1) as (_ & P1 & C1 & _).
  destruct (convert_cell_sets m1) as [m2|e] eqn:E2; cbn; [|auto].
  destruct (converted_cells m1 m2 E2) as (_ & P2 & C2 & _). split; congruence.
Qed.

Definition padded (m : mesh entry) : Prop :=
  (forall k a, In (k, a) (point_data m) -> pad_arr zero a = a) /\
  (forall k l, In (k, l) (cell_data m) -> map (pad_arr zero) l = l).
Lemma padded_iff (m : mesh entry) : padded m <-> pad_data zero m = m.
Proof.
  destruct m as [pts cs pd cd ps ks]. unfold padded, pad_data. cbn. split.
  - intros [H1 H2]. f_equal; apply map_pairs_id; assumption.
  - intros H. injection H as H1 H2. split; apply map_pairs_id; assumption.
Qed.
Lemma In_dset {V} k v (d : dict V) k' v' : In (k', v') (dset k v d) -> (k', v') = (k, v) \/ In (k', v') d \/ (k' = k /\ v' = v).
Proof.
  induction d as [|[a b] d IH]; cbn; [intuition|]. destruct (String.eqb k a) eqn:E; cbn.
  - intros [H|H]; [|tauto]. injection H as <- <-. apply String.eqb_eq in E. subst. tauto.
  - intros [H|H]; [tauto|]. destruct (IH H) as [X|[X|X]]; tauto.
Qed.
Lemma converted_padded (m : mesh entry) : padded m -> padded (snd (convert_sets m)).
Proof.
  intros [Hp Hc]. unfold convert_sets, attempt. destruct (convert_point_sets m) as [m1|e] eqn:E1; cbn; [|now split].
  destruct (converted_points m m1 E1) as (_ & _ & _ & Cd & _ & Pd).
  assert (H1 : padded m1).
  { split; [|now rewrite Cd]. destruct Pd as [->|(name & f & Pd)]; [exact Hp|]. rewrite Pd. intros k a Hin.
    apply In_dset in Hin. destruct Hin as [X|[X|[_ ->]]]; [now injection X as _ ->|exact (Hp k a X)|reflexivity]. }
  destruct (convert_cell_sets m1) as [m2|e] eqn:E2; cbn; [|exact H1]. destruct H1 as [H1p H1c].
  destruct (converted_cells m1 m2 E2) as (_ & _ & _ & Pd2 & _ & Cd2). split; [now rewrite Pd2|].
  destruct Cd2 as [->|(name & f & Cd2)]; [exact H1c|]. rewrite Cd2. intros k l Hin.
  assert (Hf : map (pad_arr zero) (map AInt f) = map AInt f) by (rewrite map_map; reflexivity).
  apply In_dset in Hin. destruct Hin as [X|[X|[_ ->]]]; [now injection X as _ ->|exact (H1c k l X)|exact Hf].
Qed.

Section Rest.
Context {File : Type} (check : list block -> result unit) (rest : list entry -> mesh entry -> result File)
  (rest1 : mesh entry -> result File).

Lemma vtk42_twice (m : mesh entry) : same_twice (write_vtk42 zero rest) m.
Proof. unfold same_twice, write_vtk42. cbn. now rewrite pad_data_idem. Qed.
Lemma vtk51_twice (m : mesh entry) : same_twice (write_vtk51 zero rest) m.
Proof.
  unfold same_twice, write_vtk51.
  assert (Hpad : pad_data zero (snd (convert_sets (pad_data zero m))) = snd (convert_sets (pad_data zero m))).
  { apply padded_iff. apply converted_padded. apply padded_iff. apply pad_data_idem. }
  pose proof (convert_sets_idem (pad_data zero m)) as Hi.
  destruct (convert_sets_points (pad_data zero m)) as [Hp _].
  destruct (convert_sets (pad_data zero m)) as [[u|e] m'] eqn:E; cbn [fst snd] in *; rewrite Hpad, Hi; cbn [fst snd]; [|reflexivity].
  rewrite Hp. reflexivity.
Qed.
Lemma vtu_twice (m : mesh entry) : same_twice (write_vtu zero check rest) m.
Proof.
  unfold same_twice, write_vtu. destruct (check (cells m)) as [u|e] eqn:Ec; cbn; [|now rewrite Ec].
  pose proof (convert_sets_idem m) as Hi. destruct (convert_sets_points m) as [Hp Hc].
  destruct (convert_sets m) as [[u'|e] m'] eqn:E; cbn [fst snd] in *; rewrite Hc, Ec, Hi; cbn [fst snd]; [|reflexivity].
  now rewrite Hp.
Qed.
Lemma avsucd_twice (m : mesh entry) : same_twice (write_avsucd zero rest1) m.
Proof. unfold same_twice, write_avsucd. cbn. now rewrite pad_rows_idem. Qed.

Lemma vtk42_unchanged (m : mesh entry) : leaves_unchanged (write_vtk42 zero rest) m <-> no_vectors_2d m.
Proof. unfold leaves_unchanged, write_vtk42. cbn. apply pad_data_id. Qed.
Lemma no_sets (m : mesh entry) : point_sets m = [] -> cell_sets m = [] -> convert_sets m = (Ok tt, m).
Proof.
  intros Hp Hc. unfold convert_sets, attempt, convert_point_sets. rewrite Hp. cbn. unfold convert_cell_sets. now rewrite Hc.
Qed.
Lemma vtu_unchanged (m : mesh entry) : fst (convert_sets m) = Ok tt -> check (cells m) = Ok tt ->
  (leaves_unchanged (write_vtu zero check rest) m <-> point_sets m = [] /\ cell_sets m = []).
Proof.
  intros Hok Hck. unfold leaves_unchanged, write_vtu. rewrite Hck. split.
  - intros H. destruct (convert_sets m) as [r m'] eqn:E. cbn in Hok. subst r. cbn in H. subst m'.
    unfold convert_sets, attempt in E. destruct (convert_point_sets m) as [m1|] eqn:E1; [|discriminate].
    destruct (convert_cell_sets m1) as [m2|] eqn:E2; [|discriminate]. injection E as ->.
    destruct (converted_points m m1 E1) as (P1 & _). destruct (converted_cells m1 m E2) as (C2 & _ & _ & _ & P2 & _).
    split; congruence.
  - intros [Hp Hc]. now rewrite (no_sets m Hp Hc).
Qed.
Lemma vtk51_unchanged (m : mesh entry) : fst (convert_sets (pad_data zero m)) = Ok tt ->
  (leaves_unchanged (write_vtk51 zero rest) m <-> no_vectors_2d m /\ point_sets m = [] /\ cell_sets m = []).
Proof.
  intros Hok. unfold leaves_unchanged, write_vtk51. split.
  - intros H.
    assert (Hpad : pad_data zero (snd (convert_sets (pad_data zero m))) = snd (convert_sets (pad_data zero m))).
    { apply padded_iff. apply converted_padded. apply padded_iff. apply pad_data_idem. }
    destruct (convert_sets (pad_data zero m)) as [r m'] eqn:E. cbn in Hok. subst r. cbn in H, Hpad. subst m'.
    split; [now apply pad_data_id|].
    unfold convert_sets, attempt in E. destruct (convert_point_sets (pad_data zero m)) as [m1|] eqn:E1; [|discriminate].
    destruct (convert_cell_sets m1) as [m2|] eqn:E2; [|discriminate]. injection E as ->.
    destruct (converted_points _ m1 E1) as (P1 & _). destruct (converted_cells m1 m E2) as (C2 & _ & _ & _ & P2 & _).
    split; congruence.
  - intros (Hn & Hp & Hc). apply pad_data_id in Hn. rewrite Hn. now rewrite (no_sets m Hp Hc).
Qed.
Lemma avsucd_unchanged (m : mesh entry) : leaves_unchanged (write_avsucd zero rest1) m <-> ~ vectors_2d (AOther (points m)).
Proof.
  unfold leaves_unchanged, write_avsucd. cbn. rewrite <- pad_arr_id. cbn. split.
  - intros H. destruct m. cbn in *. injection H as H. now rewrite H.
  - intros H. injection H as H. rewrite H. now destruct m.
Qed.
End Rest.
End Effects.

(** ** PLY *)
Lemma to_int32_id z : (-2147483648 <= z < 2147483648)%Z -> to_int32 z = z.
Proof. intros H. unfold to_int32. rewrite Z.mod_small by lia. lia. Qed.
Lemma to_int32_fits z : (-2147483648 <= to_int32 z < 2147483648)%Z.
Proof. unfold to_int32. pose proof (Z.mod_pos_bound (z + 2147483648) 4294967296). lia. Qed.
Lemma cast_block_idem b : cast_block (cast_block b) = cast_block b.
Proof. destruct b as [[] b]; reflexivity. Qed.
Lemma cast_num_cells bs : ply_num_cells (map cast_block bs) = ply_num_cells bs.
Proof.
  unfold ply_num_cells. f_equal. rewrite map_map. apply map_ext. intros [[] [t rows]]; cbn; [|reflexivity].
  unfold blen. cbn. now rewrite map_length.
Qed.
Lemma ply_cast_idem bs : ply_cast (ply_cast bs) = ply_cast bs.
Proof.
  unfold ply_cast. destruct (Nat.ltb 0 (ply_num_cells bs)) eqn:E; [|now rewrite E].
  rewrite cast_num_cells, E, map_map. apply map_ext. apply cast_block_idem.
Qed.
Lemma ply_twice {O File} (head : O -> result unit) (rest : O -> list (bool * block) -> result File) m :
  same_twice (write_ply head rest) m.
Proof.
  unfold same_twice, write_ply. destruct (head (fst m)) as [u|e] eqn:E; cbn; rewrite E; cbn; [|reflexivity].
  now rewrite ply_cast_idem.
Qed.
(** The cells themselves, without the type of the array *)
Lemma ply_cells bs : Forall (fun b => Forall (Forall (fun i => (-2147483648 <= i < 2147483648)%Z)) (bdata (snd b))) bs ->
  map snd (ply_cast bs) = map snd bs.
Proof.
  intros H. unfold ply_cast. destruct (Nat.ltb 0 (ply_num_cells bs)); [|reflexivity].
  rewrite map_map. apply map_ext_in. intros b Hin. rewrite Forall_forall in H. specialize (H b Hin).
  destruct b as [[] [t rows]]; cbn in *; [|reflexivity]. f_equal.
  rewrite <- (map_id rows) at 2. apply map_ext_in. intros r Hr. rewrite Forall_forall in H. specialize (H r Hr).
  rewrite <- (map_id r) at 2. apply map_ext_in. intros z Hz. rewrite Forall_forall in H. apply to_int32_id. exact (H z Hz).
Qed.

(** ** FLAC3D *)
Lemma shift_one_block b s : length s <= 1 -> shift_sets 0 [b] s = s.
Proof.
  destruct s as [|x [|y s]]; cbn; try reflexivity; [|lia]. intros _. f_equal. rewrite <- (map_id x) at 2. apply map_ext. intros z. lia.
Qed.
Lemma flac_one_block {fl : floats} (g : geom fl) v date (m : flac_in fl) b : fi_cells m = [b] ->
  Forall (fun kv => length (snd kv) = 1) (fi_sets m) -> leaves_unchanged (flac3d_writer g v date) m.
Proof.
  intros Hb Hs. unfold leaves_unchanged, flac3d_writer. destruct (write_flac3d g v date m) as [[f after]|e] eqn:E; [|reflexivity].
  cbn. assert (after = fi_sets m) as ->.
  { unfold write_flac3d in E. destruct (mapM gridpoint_line _); cbn in E; [|discriminate].
    destruct (translate_zcells _ _ _); cbn in E; [|discriminate]. destruct (zone_lines _ _); cbn in E; [|discriminate].
    injection E as _ <-. unfold sets_after. rewrite Hb. rewrite <- (map_id (fi_sets m)) at 2. apply map_ext_in.
    intros [k s] Hin. cbn [fst snd]. f_equal. apply (shift_one_block b). rewrite Forall_forall in Hs. specialize (Hs _ Hin). cbn in Hs. lia. }
  now destruct m.
Qed.
Lemma unchanged_twice {M File} (w : M -> result File * M) m : leaves_unchanged w m -> same_twice w m.
Proof. intros H. unfold same_twice. now rewrite H. Qed.

(** ** Names of sets *)
Lemma replace_char_join a b (sep : ascii) l : a <> sep -> join (String sep "") (map (replace_char a b) l) = replace_char a b (join (String sep "") l).
Proof.
  intros H. assert (Ha : forall x y, replace_char a b (x ++ y)%string = (replace_char a b x ++ replace_char a b y)%string).
  { induction x as [|c x IH]; intros y; cbn; [reflexivity|]. now rewrite IH. }
  induction l as [|x [|y l] IH]; [reflexivity|reflexivity|]. change (join (String sep "") (x :: y :: l)) with (x ++ String sep "" ++ join (String sep "") (y :: l))%string.
  rewrite !Ha. rewrite <- IH. cbn [replace_char]. destruct (Ascii.eqb_spec sep a) as [E|_]; [now subst|]. reflexivity.
Qed.

Lemma map_replace_same a b l : a <> b -> Forall (fun n => char_in b n = false) l ->
  forall c, Forall (fun n => char_in c n = false) l -> c <> b -> Forall (fun n => char_in c n = false) (map (replace_char a b) l).
Proof.
  intros _ _ c Hc Hcb. apply Forall_forall. intros n Hin. apply in_map_iff in Hin. destruct Hin as (n0 & <- & Hin).
  rewrite Forall_forall in Hc. specialize (Hc n0 Hin). clear Hin. induction n0 as [|x n0 IH]; cbn in *; [reflexivity|].
  apply orb_false_iff in Hc. destruct Hc as [H1 H2]. rewrite (IH H2), orb_false_r.
  destruct (Ascii.eqb x a); [|exact H1]. apply Ascii.eqb_neq. congruence.
Qed.

Lemma char_in_app c x y : char_in c (x ++ y)%string = (char_in c x || char_in c y)%bool.
Proof. induction x as [|a x IH]; cbn; [reflexivity|]. now rewrite IH, orb_assoc. Qed.
Lemma char_in_join c sep l : char_in c (join (String sep "") l) = false ->
  Forall (fun n => char_in c n = false) l /\ (2 <= length l -> c <> sep).
Proof.
  induction l as [|x [|y l] IH]; [split; [constructor|cbn; lia]|intros H; split; [constructor; [exact H|constructor]|cbn; lia]|].
  rewrite join_cons, char_in_app, char_in_app. intros H. apply orb_false_iff in H. destruct H as [Hx H]. apply orb_false_iff in H.
  destruct H as [Hs H]. split; [constructor; [exact Hx|exact (proj1 (IH H))]|]. intros _ E. subst c. cbn in Hs. now rewrite Ascii.eqb_refl in Hs.
Qed.
Lemma replace_char_id a b x : char_in a x = false -> replace_char a b x = x.
Proof.
  induction x as [|c x IH]; cbn; [reflexivity|]. intros H. apply orb_false_iff in H. destruct H as [H1 H2].
  rewrite (IH H2). destruct (Ascii.eqb_spec c a) as [E|_]; [|reflexivity]. subst c. now rewrite Ascii.eqb_refl in H1.
Qed.

Lemma set_key_kept names key : names <> [] -> set_key names = Ok key ->
  (2 <= length names \/ Forall (fun n => char_in " " n = false) names) -> names_kept names key.
Proof.
  intros Hne Hk Hn. unfold set_key in Hk. destruct (join_strings names) as [[j c]|] eqn:Ej; cbn in Hk; [|discriminate].
  unfold replace_space in Hk. destruct (find _ space_chars) as [s|] eqn:Es; cbn in Hk; [|discriminate]. injection Hk as <-.
  apply find_some in Es. destruct Es as [Es1 Es2]. apply negb_true_iff in Es2.
  apply join_strings_ok in Ej. destruct Ej as (Hc1 & Hc2 & ->). destruct (char_in_join s c names Es2) as [Hs Hsc].
  assert (Hc : Forall (fun n => char_in c n = false) names).
  { apply is_in_any_forall in Hc2. rewrite forallb_forall in Hc2. apply Forall_forall. intros n Hin. specialize (Hc2 n Hin).
    now apply negb_true_iff in Hc2. }
  assert (Hcsp : " "%char <> c).
  { intros E. subst c. cbn in Hc1. repeat (destruct Hc1 as [X|Hc1]; [discriminate|]). contradiction. }
  assert (Hssp : " "%char <> s).
  { intros E. subst s. cbn in Es1. repeat (destruct Es1 as [X|Es1]; [discriminate|]). contradiction. }
  exists c, s. split.
  { rewrite Forall_forall in *. intros n Hin. split; [exact (Hc n Hin)|exact (Hs n Hin)]. }
  rewrite <- replace_char_join by exact Hcsp. apply split_join_char; [now destruct names|].
  rewrite forallb_forall. intros n Hin. apply negb_true_iff. destruct Hn as [H2|Hsp].
  - assert (Hx : Forall (fun n => char_in c n = false) (map (replace_char " " s) names)).
    { apply map_replace_same; auto. specialize (Hsc H2). congruence. }
    rewrite Forall_forall in Hx. exact (Hx n Hin).
  - apply in_map_iff in Hin. destruct Hin as (n0 & <- & Hin). rewrite Forall_forall in Hsp, Hc.
    rewrite replace_char_id by exact (Hsp n0 Hin). exact (Hc n0 Hin).
Qed.
