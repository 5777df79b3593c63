(** Arrays stored outside and inside of XDMF files, meshes and time series. *)
From Verif.Lib Require Import Base Facts Facts2 Text TextFacts Lines LinesFacts Runs Bytes BytesFacts File.
From Verif.Model Require Import Core Xdmf.
From Verif.Spec Require Import Core Blocks Xdmf.
From Verif.Proofs Require Import Core CoreMisc Blocks Gmsh Gmsh22 XdmfMixed.
From Coq Require Import ZifyBool ZifyNat.
Local Arguments str_of_nat : simpl never.
Local Arguments str_of_Z : simpl never.

(** ** Names *)
Lemma append_cancel_l a x y : (a ++ x)%string = (a ++ y)%string -> x = y.
Proof. induction a as [|c a IH]; cbn; intros H; [exact H|]. injection H. exact IH. Qed.
Lemma los_app a b : list_ascii_of_string (a ++ b) = list_ascii_of_string a ++ list_ascii_of_string b.
Proof. induction a; cbn; congruence. Qed.
Lemma append_cancel_r a b x : (a ++ x)%string = (b ++ x)%string -> a = b.
Proof.
  intros H. apply (f_equal list_ascii_of_string) in H. rewrite !los_app in H. apply app_inv_tail in H.
  rewrite <- (string_of_list_ascii_of_string a), H. apply string_of_list_ascii_of_string.
Qed.
Lemma str_of_nat_inj a b : str_of_nat a = str_of_nat b -> a = b.
Proof.
  rewrite !str_of_nat_Z. intros H. apply (f_equal parse_Z) in H. rewrite !parse_Z_str_of_Z in H. injection H. lia.
Qed.
Lemma lstrip_app s w : lstrip s = s -> word w = true -> lstrip (s ++ w)%string = (s ++ w)%string.
Proof.
  destruct s as [|c s]; cbn [append lstrip].
  - intros _ H. destruct w as [|c w]; [reflexivity|]. cbn [lstrip word no_space] in *. apply andb_true_iff in H. destruct H as [H _].
    apply negb_true_iff in H. now rewrite H.
  - destruct (is_space c) eqn:E; [|reflexivity]. intros H. exfalso. assert (L : forall x, String.length (lstrip x) <= String.length x).
    { clear. induction x as [|a x IH]; cbn; [lia|]. destruct (is_space a); cbn; lia. }
    specialize (L s). apply (f_equal String.length) in H. cbn in H. lia.
Qed.
Lemma no_space_app a b : no_space (a ++ b)%string = no_space a && no_space b.
Proof. induction a as [|c a IH]; cbn; [reflexivity|]. rewrite IH. apply andb_assoc. Qed.
Lemma no_space_nat n : no_space (str_of_nat n) = true.
Proof. rewrite str_of_nat_Z. apply word_no_space, word_str_of_Z. Qed.

(** ** Dictionaries *)
Lemma dset_new {V} k (v : V) d : ~ In k (dkeys d) -> dset k v d = d ++ [(k, v)].
Proof.
  induction d as [|[k' v'] d IH]; cbn [dset app dkeys map fst]; intros H; [reflexivity|].
  destruct (String.eqb_spec k k') as [<-|]; [exfalso; apply H; now left|]. rewrite IH; [reflexivity|]. intros Hin. apply H. now right.
Qed.

Lemma dkeys_app {V} (a b : dict V) : dkeys (a ++ b) = dkeys a ++ dkeys b.
Proof. apply map_app. Qed.

Section Store.
Context {F : Type} (N : xnums F) (ts : bool) (format base h5name dir : string).
Hypothesis Hbase : lstrip base = base.
Hypothesis Hh5 : file_name h5name.

Definition bin_name (k : nat) : string := (base ++ str_of_nat k ++ ".bin")%string.
Definition h5_name (k : nat) : string := ("data" ++ str_of_nat k)%string.
Definition inv (st : store F) : Prop :=
  forall k, st_count st <= k -> dget (bin_name k) (st_bins st) = None /\ dget (h5_name k) (st_h5 st) = None.
Definition extends (st st' : store F) : Prop :=
  (forall n b, dget n (st_bins st) = Some b -> dget n (st_bins st') = Some b) /\
  (forall n a, dget n (st_h5 st) = Some a -> dget n (st_h5 st') = Some a).
Lemma extends_refl st : extends st st.
Proof. split; auto. Qed.
Lemma extends_trans a b c : extends a b -> extends b c -> extends a c.
Proof. intros [H1 H2] [H3 H4]. split; auto. Qed.
Definition read_st (st : store F) (d : ditem) : result (xarr F) :=
  read_item N ts (st_bins st) [((dir ++ "/" ++ h5name)%string, st_h5 st)] dir d.

Lemma bin_inj j k : bin_name j = bin_name k -> j = k.
Proof. intros H. apply append_cancel_l, append_cancel_r in H. now apply str_of_nat_inj. Qed.
Lemma h5_inj j k : h5_name j = h5_name k -> j = k.
Proof. intros H. apply append_cancel_l in H. now apply str_of_nat_inj. Qed.

Lemma fmt_word dt v : num_ok N dt v -> word (num_fmt N dt v) = true.
Proof. intros [H _]. destruct v; cbn; [apply word_str_of_Z|tauto]. Qed.
Lemma fmt_parse dt v : num_ok N dt v -> num_parse N dt (num_fmt N dt v) = Some v.
Proof.
  intros [H _]. unfold num_parse. destruct v as [z|f]; cbn [num_fmt].
  - rewrite H, parse_Z_str_of_Z. reflexivity.
  - destruct H as (-> & _ & ->). reflexivity.
Qed.
Lemma fmt_words dt vs : Forall (num_ok N dt) vs -> forallb word (map (num_fmt N dt) vs) = true.
Proof. induction 1 as [|v vs H _ IH]; [reflexivity|]. cbn. now rewrite fmt_word. Qed.
Lemma fmt_parses dt vs : Forall (num_ok N dt) vs ->
  mapM (fun t => of_option ValueError (num_parse N dt t)) (map (num_fmt N dt) vs) = Ok vs.
Proof. induction 1 as [|v vs H _ IH]; [reflexivity|]. cbn [map mapM]. now rewrite fmt_parse, IH. Qed.

Lemma dims_read dims : mapM (fun t => of_option ValueError (parse_Z t)) (split_ws (row_line (map str_of_nat dims))) = Ok (map Z.of_nat dims).
Proof.
  unfold row_line. rewrite split_ws_join.
  - induction dims as [|n dims IH]; [reflexivity|]. cbn [map mapM]. rewrite str_of_nat_Z, parse_Z_str_of_Z, IH. reflexivity.
  - induction dims as [|n dims IH]; [reflexivity|]. cbn [map forallb]. now rewrite word_str_of_nat.
Qed.
Lemma nat_dims dims : map Z.to_nat (map Z.of_nat dims) = dims.
Proof. rewrite map_map. rewrite <- (map_id dims) at 2. apply map_ext. intros. lia. Qed.

Lemma reshape_ok (a : xarr F) : Forall (fun r => length r = shape_size (xa_tail a)) (xa_rows a) ->
  reshape (xa_dtype a) (xa_shape a) (concat (xa_rows a)) = Ok a.
Proof.
  intros H. unfold reshape, xa_shape. fold (shape_size (xa_tail a)).
  rewrite (concat_uniform_length (shape_size (xa_tail a))) by auto. rewrite (Nat.mul_comm (length _)), Nat.eqb_refl. destruct a as [dt tail rows]. cbn [xa_dtype xa_tail xa_rows] in *.
  f_equal. f_equal. destruct (Nat.eqb_spec (shape_size tail) 0) as [E|E].
  - rewrite E in H. induction H as [|r rows Hr _ IH]; [reflexivity|]. cbn [length repeat]. f_equal; [|exact IH]. now destruct r.
  - apply chunks_concat; [lia|exact H].
Qed.
Lemma dtype_ok dt : In dt (dkeys numpy_to_xdmf_dtype) -> exists dp w, dget dt numpy_to_xdmf_dtype = Some dp /\
  xdmf_to_numpy_type (fst dp, snd dp) = Some dt /\ dget dt dtype_width = Some w /\ 0 < w.
Proof.
  intros H. cbn in H.
  repeat (destruct H as [<-|H]; [eexists _, _; split; [reflexivity|split; [reflexivity|split; [reflexivity|lia]]]|]). destruct H.
Qed.

Lemma data_item_ok st a : inv st -> arr_ok N a -> format_ok ts format a ->
  exists d st', data_item N ts format base h5name st (xa_shape a) a = Ok (d, st') /\ inv st' /\ extends st st' /\
    forall st'', extends st' st'' -> read_st st'' d = Ok a.
Proof.
  intros Hi [Hdt Hrows] Hf. destruct (dtype_ok _ Hdt) as (dp & w & Hdp & Hback & Hw & Hw0).
  assert (Hlen : Forall (fun r => length r = shape_size (xa_tail a)) (xa_rows a)) by (eapply Forall_impl; [|exact Hrows]; cbn; tauto).
  assert (Hnum : Forall (num_ok N (xa_dtype a)) (concat (xa_rows a))).
  { apply Forall_concat. eapply Forall_impl; [|exact Hrows]. cbn. tauto. }
  unfold data_item. rewrite Hdp. cbn [of_option bind]. unfold xml_string. unfold format_ok in Hf.
  destruct Hf as [-> | [-> | (-> & Hx & Hsh)]].
  - (* HDF *)
    change (String.eqb "HDF" "XML") with false. change (String.eqb "HDF" "Binary") with false. cbv iota.
    fold (h5_name (st_count st)). destruct (Hi (st_count st) (le_n _)) as [_ Hnone].
    assert (Hm : dmem (h5_name (st_count st)) (st_h5 st) = false) by (unfold dmem; now rewrite Hnone). rewrite Hm. cbn [bind fst snd].
    eexists _, _. split; [reflexivity|]. split; [|split].
    + intros k Hk. cbn [st_count st_bins st_h5] in *. destruct (Hi k ltac:(lia)) as [H1 H2]. split; [exact H1|].
      rewrite dget_dset_other; [exact H2|]. intros E. apply h5_inj in E. lia.
    + split; cbn [st_bins st_h5]; [auto|]. intros n x Hn. rewrite dget_dset_other; [exact Hn|]. intros ->. congruence.
    + intros st'' [_ He]. cbn [st_h5] in He. specialize (He _ _ (dget_dset_same _ _ _)).
      unfold read_st, read_item. cbn [d_dims d_format d_text hd]. rewrite dims_read. cbn [bind].
      change (String.eqb "HDF" "XML") with false. change (String.eqb "HDF" "Binary") with false. change (String.eqb "HDF" "HDF") with true. cbv iota.
      destruct Hh5 as [Hl Hc].
      assert (Es : strip (h5name ++ ":/" ++ h5_name (st_count st)) = (h5name ++ ":/" ++ h5_name (st_count st))%string).
      { assert (Hw' : word (":/" ++ h5_name (st_count st)) = true).
        { cbn. apply no_space_nat. }
        unfold strip. rewrite lstrip_app by auto. now rewrite rstrip_app_word. }
      rewrite Es. change (":/" ++ h5_name (st_count st))%string with (String ":" ("/" ++ h5_name (st_count st))).
      rewrite split_char_app by auto. rewrite split_char_single.
      2:{ unfold h5_name. cbn [append char_in]. change (Ascii.eqb ":" "/") with false. cbn. rewrite str_of_nat_Z. apply char_in_str_of_Z; [reflexivity|discriminate]. }
      cbn [append]. rewrite Ascii.eqb_refl. cbn [bind dget]. rewrite String.eqb_refl. cbn [of_option bind].
      change ("data" ++ str_of_nat (st_count st))%string with (h5_name (st_count st)). now rewrite He.
  - (* Binary *)
    change (String.eqb "Binary" "XML") with false. change (String.eqb "Binary" "Binary") with true. cbv iota.
    fold (bin_name (st_count st)). cbn [bind fst snd].
    eexists _, _. split; [reflexivity|]. split; [|split].
    + intros k Hk. cbn [st_count st_bins st_h5] in *. destruct (Hi k ltac:(lia)) as [H1 H2]. split; [|exact H2].
      rewrite dget_dset_other; [exact H1|]. intros E. apply bin_inj in E. lia.
    + split; cbn [st_bins st_h5]; [|auto]. intros n x Hn. rewrite dget_dset_other; [exact Hn|]. intros ->.
      destruct (Hi (st_count st) (le_n _)) as [Hnone _]. congruence.
    + intros st'' [He _]. cbn [st_bins] in He. specialize (He _ _ (dget_dset_same _ _ _)).
      unfold read_st, read_item. cbn [d_dims d_format d_text d_type d_prec hd]. rewrite dims_read. cbn [bind].
      change (String.eqb "Binary" "XML") with false. change (String.eqb "Binary" "Binary") with true. cbv iota.
      rewrite Hback. cbn [of_option bind]. rewrite Hw. cbn [of_option bind].
      assert (Es : strip (bin_name (st_count st)) = bin_name (st_count st)).
      { assert (Hw' : word (str_of_nat (st_count st) ++ ".bin") = true).
        { assert (Hn : no_space (str_of_nat (st_count st) ++ ".bin") = true) by (rewrite no_space_app, no_space_nat; reflexivity).
          destruct (str_of_nat (st_count st) ++ ".bin")%string eqn:E; [|exact Hn]. apply (f_equal String.length) in E. 
          pose proof (word_str_of_nat (st_count st)) as Hx. destruct (str_of_nat (st_count st)); [discriminate Hx|discriminate E]. }
        unfold strip, bin_name. rewrite lstrip_app by auto. now rewrite rstrip_app_word. }
      rewrite Es, He. cbn [of_option bind]. rewrite frombuffer_concat.
      2:{ exact Hw0. }
      2:{ apply Forall_map. eapply Forall_impl; [|exact Hnum]. cbn. intros v (_ & Hwv & _). now apply Hwv. }
      cbn [bind]. rewrite nat_dims, map_map.
      assert (Em : map (fun x => dec (x_codec N (xa_dtype a)) (enc (x_codec N (xa_dtype a)) x)) (concat (xa_rows a)) = concat (xa_rows a)).
      { rewrite <- (map_id (concat (xa_rows a))) at 2. apply map_ext_in. intros v Hv. rewrite Forall_forall in Hnum. now apply Hnum. }
      rewrite Em. now apply reshape_ok.
  - (* XML *)
    change (String.eqb "XML" "XML") with true. cbv iota.
    assert (Hs : smem (xa_dtype a) text_dtypes = true).
    { unfold smem. apply existsb_exists. exists (xa_dtype a). split; [exact Hx|apply String.eqb_refl]. }
    rewrite Hs. cbn [negb].
    assert (Hrd : forall lines st'', flat_map split_ws lines = map (num_fmt N (xa_dtype a)) (concat (xa_rows a)) -> (ts = true -> lines <> []) ->
      read_st st'' (DItem (fst dp) (snd dp) (row_line (map str_of_nat (xa_shape a))) "XML" lines) = Ok a).
    { intros lines st'' El Hne. unfold read_st, read_item. cbn [d_dims d_format d_text d_type d_prec]. rewrite dims_read. cbn [bind].
      change (String.eqb "XML" "XML") with true. cbv iota. rewrite Hback. cbn [of_option bind].
      assert (Ets : ts && match lines with [] => true | _ => false end = false).
      { destruct ts; [|reflexivity]. destruct lines; [now specialize (Hne eq_refl)|reflexivity]. }
      rewrite Ets, El, fmt_parses by auto. cbn [bind]. rewrite nat_dims. now apply reshape_ok. }
    destruct ts.
    + cbn [bind fst snd]. eexists _, _. split; [reflexivity|]. split; [exact Hi|]. split; [apply extends_refl|].
      intros st'' _. apply Hrd.
      * clear - Hnum. induction Hnum as [|v vs Hv _ IH]; [reflexivity|]. cbn [map flat_map]. rewrite IH.
        pose proof (split_ws_join [num_fmt N (xa_dtype a) v]) as X. cbn [forallb join String.concat] in X. rewrite (fmt_word _ _ Hv) in X.
        change (String.concat " " [num_fmt N (xa_dtype a) v]) with (num_fmt N (xa_dtype a) v) in X. rewrite (X eq_refl). reflexivity.
      * intros _ E. destruct (concat (xa_rows a)); [congruence|discriminate].
    + replace (Nat.ltb 1 (length (xa_tail a))) with false by lia. cbn [bind fst snd].
      eexists _, _. split; [reflexivity|]. split; [exact Hi|]. split; [apply extends_refl|].
      intros st'' _. apply Hrd; [|discriminate]. cbn [flat_map app]. change (split_ws "") with (@nil string). cbn [app].
      clear - Hrows. induction Hrows as [|r rows [_ Hr] _ IH]; [reflexivity|]. cbn [map flat_map concat]. rewrite map_app, IH. f_equal.
      apply split_ws_join. now apply fmt_words.
Qed.

Definition good_request (rq : request (F := F)) : Prop :=
  fst (snd rq) = xa_shape (snd (snd rq)) /\ arr_ok N (snd (snd rq)) /\ format_ok ts format (snd (snd rq)).
Definition answers (st : store F) (rq : request (F := F)) (e : xel F) : Prop :=
  exists d, e = fst rq d /\ forall st', extends st st' -> read_st st' d = Ok (snd (snd rq)).
Lemma answers_extends st st' rq e : extends st st' -> answers st rq e -> answers st' rq e.
Proof. intros H (d & E & Hd). exists d. split; [exact E|]. intros st'' H'. apply Hd. eapply extends_trans; eauto. Qed.

Lemma put_all_ok reqs : forall st, inv st -> Forall good_request reqs ->
  exists els st', put_all N ts format base h5name st reqs = Ok (els, st') /\ inv st' /\ extends st st' /\
    Forall2 (answers st') reqs els.
Proof.
  induction reqs as [|[el [dims a]] reqs IH]; intros st Hi Hg.
  - exists [], st. split; [reflexivity|]. split; [exact Hi|]. split; [apply extends_refl|constructor].
  - inversion Hg as [|? ? (Hd & Ha & Hf) Hg']; subst. cbn [fst snd] in Hd, Ha, Hf. subst dims.
    destruct (data_item_ok st a Hi Ha Hf) as (d & st1 & E1 & Hi1 & Hx1 & Hr1).
    destruct (IH st1 Hi1 Hg') as (els & st2 & E2 & Hi2 & Hx2 & Hr2).
    exists (el d :: els), st2. cbn [put_all]. rewrite E1. cbn [bind fst snd]. rewrite E2. split; [reflexivity|]. split; [exact Hi2|].
    split; [eapply extends_trans; eauto|]. constructor; [|exact Hr2]. exists d. split; [reflexivity|].
    intros st' H'. apply Hr1. eapply extends_trans; eauto.
Qed.

(** ** Attributes *)
Definition attr_req (center : string) (na : string * xarr F) : request (F := F) := (Attribute (fst na) center, (xa_shape (snd na), snd na)).
Lemma attr_reqs center (pd : dict (xarr F)) : Forall (fun na => attribute_ok (xa_tail (snd na))) pd ->
  mapM (attribute_request center) pd = Ok (map (attr_req center) pd).
Proof. induction 1 as [|na pd [s Hs] _ IH]; [reflexivity|]. cbn [mapM map]. unfold attribute_request at 1. rewrite Hs, IH. reflexivity. Qed.

Lemma fold_nodes st pd els : Forall2 (answers st) (map (attr_req "Node") pd) els -> forall s,
  NoDup (dkeys (r_pd s ++ pd)) ->
  foldM (read_element (read_st st)) s els = Ok (XRead (r_points s) (r_cells s) (r_pd s ++ pd) (r_raw s)).
Proof.
  revert els. induction pd as [|[n a] pd IH]; intros els H s Hnd; inversion H as [|? ? ? ? Hh Ht]; subst.
  - cbn. rewrite app_nil_r. now destruct s.
  - destruct Hh as (d & -> & Hd). cbn [attr_req fst snd foldM read_element]. rewrite (Hd st (extends_refl st)). cbn [bind].
    change (String.eqb "Node" "Node") with true. cbv iota. cbn [bind snd attr_req].
    rewrite dset_new.
    2:{ rewrite dkeys_app in Hnd. cbn [dkeys map fst] in Hnd. apply NoDup_remove_2 in Hnd. intros Hin. apply Hnd. apply in_app_iff. now left. }
    rewrite IH; cbn [r_pd r_points r_cells r_raw]; [now rewrite <- app_assoc|exact Ht|]. rewrite <- app_assoc. exact Hnd.
Qed.
Lemma fold_cells st pd els : Forall2 (answers st) (map (attr_req "Cell") pd) els -> forall s,
  NoDup (dkeys (r_raw s ++ pd)) ->
  foldM (read_element (read_st st)) s els = Ok (XRead (r_points s) (r_cells s) (r_pd s) (r_raw s ++ pd)).
Proof.
  revert els. induction pd as [|[n a] pd IH]; intros els H s Hnd; inversion H as [|? ? ? ? Hh Ht]; subst.
  - cbn. rewrite app_nil_r. now destruct s.
  - destruct Hh as (d & -> & Hd). cbn [attr_req fst snd foldM read_element]. rewrite (Hd st (extends_refl st)). cbn [bind].
    change (String.eqb "Cell" "Node") with false. change (String.eqb "Cell" "Cell") with true. cbv iota. cbn [bind snd attr_req].
    rewrite dset_new.
    2:{ rewrite dkeys_app in Hnd. cbn [dkeys map fst] in Hnd. apply NoDup_remove_2 in Hnd. intros Hin. apply Hnd. apply in_app_iff. now left. }
    rewrite IH; cbn [r_pd r_points r_cells r_raw]; [now rewrite <- app_assoc|exact Ht|]. rewrite <- app_assoc. exact Hnd.
Qed.

(** ** Cell data *)
Lemma raw_arrays_ok bs cd : cd_ok N ts format bs cd ->
  raw_arrays cd = Ok (map (fun nc => (fst nc, cd_whole (snd nc))) cd).
Proof.
  intros (_ & Hbs & H). destruct cd as [|nc0 cd0] eqn:Ecd; [reflexivity|]. rewrite <- Ecd in *.
  assert (Hne : bs <> []) by (intros E; specialize (Hbs E); subst; discriminate).
  clear Ecd Hbs. induction H as [|nc cd (Hl & _) _ IH]; [reflexivity|]. unfold raw_arrays in *. cbn [mapM map]. rewrite IH.
  destruct (cd_rows (snd nc)) as [|r rs] eqn:E.
  - exfalso. cbn in Hl. destruct bs; [congruence|discriminate].
  - cbn [bind]. unfold cd_whole. now rewrite E.
Qed.
Lemma cd_nodup bs cd : cd_ok N ts format bs cd -> NoDup (dkeys (map (fun nc => (fst nc, cd_whole (snd nc))) cd)).
Proof. intros (H & _). unfold dkeys. rewrite map_map. exact H. Qed.

Lemma recut_ok bs rbs cd : cd_ok N ts format bs cd -> (bs <> [] -> rbs <> []) -> length (all_cells rbs) = length (all_cells bs) ->
  map (fun kv => (fst kv, split_array rbs (snd kv))) (map (fun nc => (fst nc, cd_whole (snd nc))) cd) = recut rbs cd.
Proof.
  intros (_ & Hbs & H) Hne Hlen. rewrite map_map. unfold recut. apply map_ext_in. intros nc Hin. cbn [fst snd].
  f_equal. unfold split_array, cd_whole. cbn [xa_dtype xa_tail xa_rows]. f_equal. unfold data_for. apply from_raw_split.
  - assert (bs <> []) by (intros E; rewrite (Hbs E) in Hin; destruct Hin). specialize (Hne H0). destruct rbs; [congruence|discriminate].
  - rewrite <- all_cells_length, Hlen, all_cells_length. rewrite Forall_forall in H. destruct (H nc Hin) as (Hl & _). rewrite <- Hl.
    apply concat_length_sum.
Qed.

(** ** Cells *)
Lemma to_ints_map (rows : list cell) : to_ints (F := F) (map (map Int) rows) = Ok rows.
Proof.
  unfold to_ints. apply mapM_Forall2. induction rows as [|r rows IH]; constructor; auto.
  apply mapM_Forall2. clear. induction r; constructor; auto.
Qed.
Lemma single_type t : In t (dkeys meshio_to_xdmf_type) ->
  exists xs, dget t meshio_to_xdmf_type = Some xs /\ dget (hd "" xs) xdmf_to_meshio_type = Some t /\ String.eqb (hd "" xs) "Mixed" = false.
Proof.
  intros H. unfold dkeys in H. cbn [map fst meshio_to_xdmf_type] in H.
  repeat (destruct H as [<-|H]; [eexists; split; [reflexivity|split; reflexivity]|]). destruct H.
Qed.

Lemma int_dtype dt : In dt ["int32"; "int64"; "uint32"; "uint64"] -> In dt (dkeys numpy_to_xdmf_dtype) /\ In dt text_dtypes.
Proof. intros H. cbn in H. repeat (destruct H as [<-|H]; [split; cbn; tauto|]). destruct H. Qed.
Lemma format_cases : In format ["XML"; "Binary"; "HDF"] -> forall a : xarr F,
  (format = "XML" -> In (xa_dtype a) text_dtypes /\ (if ts then concat (xa_rows a) <> [] else length (xa_tail a) <= 1)) -> format_ok ts format a.
Proof. intros H a Ha. cbn in H. destruct H as [H|[H|[H|[]]]]; unfold format_ok; subst format; [right; right; split; auto|tauto|tauto]. Qed.

Lemma code_small tc : mixed_cell tc -> Forall (fun z => (0 <= z < 10)%Z) (mhead (mcode (fst tc))).
Proof.
  unfold mixed_cell. destruct tc as [t c]. cbn [fst snd]. generalize (length c). intros n H.
  cbn in H. repeat (destruct H as [H|H]; [injection H as <- <-; apply Forall_forall; intros z Hz; cbn in Hz; lia|]). destruct H.
Qed.

(** The request for the topology and what reading it gives. *)
Lemma topology_ok ctype bs : In format ["XML"; "Binary"; "HDF"] -> xdmf_cells_ok ts bs -> cell_dtype_ok N ts format ctype bs ->
  exists topo, topology ts ctype bs = Ok topo /\
    match topo with
    | None => bs = []
    | Some (t, dims, a) =>
        good_request (Topology t, (dims, a)) /\
        forall rd d, rd d = Ok a -> read_topology rd [] t d = Ok (xdmf_cells bs)
    end.
Proof.
  intros Hfm Hc (Hdt & Hu64 & Hnum & Hsmall & Hxml). destruct bs as [|b [|b2 bs]].
  - exists None. split; reflexivity.
  - destruct Hc as [Ht [n Hr]]. destruct (single_type _ Ht) as (xs & E & Eb & Em). cbn [topology]. rewrite E. cbn [of_option bind].
    eexists. split; [reflexivity|]. cbn beta iota. split.
    + split; [reflexivity|]. cbn [fst snd].
      assert (Hrect : Forall (fun c => length c = length (hd [] (bdata b))) (bdata b)).
      { unfold rows_have in Hr. destruct (bdata b) as [|c0 l]; [constructor|]. cbn [hd]. inversion Hr; subst. eapply Forall_impl; [|exact Hr]. cbn. congruence. }
      split.
      * split; [now apply int_dtype|]. unfold int_rows. cbn [xa_rows xa_tail xa_dtype]. apply Forall_map. inversion Hnum as [|? ? Hb _]; subst.
        apply Forall_forall. intros c Hin. rewrite map_length. split.
        -- rewrite Forall_forall in Hrect. rewrite (Hrect c Hin). cbn. lia.
        -- apply Forall_map. rewrite Forall_forall in Hb. eapply Forall_impl; [|exact (Hb c Hin)]. cbn. tauto.
      * apply format_cases; auto. intros Ef. split; [now apply int_dtype|]. unfold int_rows. cbn [xa_rows xa_tail].
        destruct ts; [|cbn; lia]. specialize (Hxml eq_refl Ef ltac:(discriminate)). cbn [all_cells flat_map] in Hxml. rewrite app_nil_r in Hxml.
        intros Ez. apply Hxml. clear - Ez. induction (bdata b) as [|c l IH]; [reflexivity|]. cbn [map flat_map concat snd] in *.
        apply app_eq_nil in Ez. destruct Ez as [E1 E2]. rewrite (IH E2), app_nil_r. now destruct c.
    + intros rd d E1. unfold read_topology. rewrite E1. cbn [bind]. unfold int_rows. cbn [xa_rows]. rewrite to_ints_map. cbn [bind].
      rewrite Em, Eb. cbn [of_option bind app xdmf_cells]. destruct b; reflexivity.
  - set (B := b :: b2 :: bs) in *. assert (Ex : xdmf_cells B = regroup (all_cells B)) by reflexivity.
    assert (Hc' : all_cells B <> [] /\ Forall mixed_cell (all_cells B) /\ Forall (fun b => btype b <> bad_type ts /\ In (btype b) (map fst mixed_types)) B) by exact Hc.
    clear Hc. destruct Hc' as (Hne & Hm & Hb). rewrite Ex.
    assert (G : exists dt v, In dt ["int32"; "int64"; "uint32"; "uint64"] /\ (forall z, num_ok N ctype (Int z) /\ num_ok N "int64" (Int z) -> num_ok N dt (Int z)) /\
       topology (F := F) ts ctype B = Ok (Some ("Mixed", [length v], int_vector dt v)) /\ v = flat_map menc (all_cells B)).
    { unfold topology. destruct ts.
      - exists ctype, (flat_map menc (all_cells B)). split; [exact Hdt|]. split; [tauto|]. split; [|reflexivity].
        assert (El : existsb (fun b => String.eqb (btype b) "line") B = false).
        { apply Bool.not_true_iff_false. intros E. apply existsb_exists in E. destruct E as (x & Hx & Ex'). apply String.eqb_eq in Ex'.
          rewrite Forall_forall in Hb. now apply (Hb x Hx). }
        unfold B at 1. fold B. rewrite El. destruct (ts_mixed_data_ok B Hb) as (l & -> & Ecat). cbn [bind]. now rewrite Ecat, (ts_mixed_dim_ok B Hm Hb).
      - exists "int64", (flat_map menc (all_cells B)). split; [cbn; tauto|]. split; [tauto|]. split; [|reflexivity].
        assert (Eu : String.eqb ctype "uint64" = false) by (apply String.eqb_neq, Hu64; [reflexivity|unfold B; cbn; lia]).
        unfold B at 1. fold B. rewrite Eu. destruct (mixed_data_ok B Hb) as (l & -> & Ecat). cbn [bind]. now rewrite Ecat, (mixed_dim_ok B Hm Hb). }
    destruct G as (dt & v & Hdt' & Hn & -> & Ev). eexists. split; [reflexivity|]. cbn beta iota. split.
    + split; [unfold xa_shape, int_vector; cbn [fst snd xa_rows xa_tail]; now rewrite map_length|]. cbn [fst snd]. split.
      * split; [now apply int_dtype|]. unfold int_vector. cbn [xa_rows xa_tail xa_dtype]. apply Forall_map. apply Forall_forall. intros z Hz. split; [reflexivity|].
        constructor; [|constructor]. apply Hn. rewrite Ev in Hz. apply in_flat_map in Hz. destruct Hz as (tc & Htc & Hz). unfold menc in Hz.
        apply in_app_iff in Hz. rewrite Forall_forall in Hm. destruct Hz as [Hz|Hz].
        -- apply Hsmall. pose proof (code_small tc (Hm tc Htc)) as Hs. rewrite Forall_forall in Hs. now apply Hs.
        -- unfold all_cells in Htc. apply in_flat_map in Htc. destruct Htc as (b' & Hb' & Hin). apply in_map_iff in Hin. destruct Hin as (c & <- & Hc).
           rewrite Forall_forall in Hnum. specialize (Hnum b' Hb'). rewrite Forall_forall in Hnum. specialize (Hnum c Hc). rewrite Forall_forall in Hnum. now apply Hnum.
      * apply format_cases; auto. intros _. split; [now apply int_dtype|]. unfold int_vector. cbn [xa_rows xa_tail]. destruct ts; [|cbn; lia].
        rewrite Ev. destruct (all_cells B) as [|tc L]; [congruence|]. cbn [flat_map]. unfold menc, mhead. destruct (Z.eqb _ 2); discriminate.
    + intros rd d E1. unfold read_topology. rewrite E1. cbn [bind]. unfold int_vector. cbn [xa_rows].
      assert (Et : map (fun z : Z => [@Int F z]) v = map (map Int) (map (fun z => [z]) v)) by (rewrite map_map; reflexivity).
      rewrite Et, to_ints_map. cbn [bind]. change (String.eqb "Mixed" "Mixed") with true. cbv iota.
      assert (Ec : concat (map (fun z => [z]) v) = v) by (clear; induction v; cbn; congruence). rewrite Ec, Ev. now apply translate_mixed_ok.
Qed.
End Store.
