(** Proofs about Exodus files. *)
From Verif.Lib Require Import Base Facts Facts2 Text TextFacts Lines LinesFacts.
From Verif.Model Require Import Core Abaqus Exodus.
From Verif.Spec Require Import Core Info Exodus.
From Verif.Proofs Require Import Gmsh Gmsh22 Gmsh22File Xdmf Exodus.
From Coq Require Import Lia.

Local Arguments str_of_nat : simpl never.
Local Arguments String.eqb : simpl never.

Lemma sub_all s : substring 0 (String.length s) s = s.
Proof. induction s; cbn; congruence. Qed.
Lemma sub_app p : forall s n, substring (String.length p) n (p ++ s) = substring 0 n s.
Proof. induction p as [|c p IH]; intros s n; cbn; auto. Qed.
Lemma drop_str_app p s : drop_str (String.length p) (p ++ s) = s.
Proof.
  unfold drop_str. rewrite sub_app, slen_app. replace (String.length p + String.length s - String.length p) with (String.length s) by lia. apply sub_all.
Qed.

Lemma str_pos k : exists a s, str_of_nat k = String a s.
Proof. pose proof (word_str_of_nat k) as W. destruct (str_of_nat k); [discriminate|eauto]. Qed.
Lemma parse_numbered k : parse_Z (str_of_nat (S k)) = Some (Z.of_nat k + 1)%Z.
Proof. rewrite str_of_nat_Z, parse_Z_str_of_Z. f_equal. lia. Qed.

Lemma combine_app_eq {A B} (a a' : list A) (b b' : list B) : length a = length b -> combine (a ++ a') (b ++ b') = combine a b ++ combine a' b'.
Proof. revert b; induction a as [|x a IH]; intros [|y b] H; cbn in *; try discriminate; [reflexivity|]. now rewrite IH by lia. Qed.

Section S.
Context {F : Type} (zero : F).
Notation step := (ex_step zero).
Notation fold := (ex_fold zero).

Lemma fold_app l1 l2 : forall st, fold st (l1 ++ l2) = bind (fold st l1) (fun st' => fold st' l2).
Proof. induction l1 as [|x l1 IH]; intros st; [reflexivity|]. cbn [app ex_fold]. destruct (step st x); cbn [bind]; [apply IH|reflexivity]. Qed.

(** ** One variable *)
Lemma step_conn pts cs pn cn pd cd nn ns s t rows ty : dget (upper t) exodus_to_meshio_type = Some ty ->
  step (ExState pts cs pn cn pd cd nn ns) (("connect" ++ s)%string, NcConn t rows)
  = Ok (ExState pts (cs ++ [Block ty (map (map (fun i => (i - 1)%Z)) rows)]) pn cn pd cd nn ns).
Proof.
  intros H. unfold ex_step, startswith. rewrite prefix_app.
  change (String.eqb ("connect" ++ s) "info_records") with false. change (String.eqb ("connect" ++ s) "qa_records") with false.
  cbn [orb]. now rewrite H.
Qed.
Lemma step_nod pts cs pn cn pd cd nn ns k x xs :
  step (ExState pts cs pn cn pd cd nn ns) (numbered "vals_nod_var" k, NcNod (x :: xs))
  = Ok (ExState pts cs pn cn (zset (Z.of_nat k) x pd) cd nn ns).
Proof.
  unfold numbered, ex_step. destruct (str_pos (S k)) as (a & s & E).
  change (String.eqb ("vals_nod_var" ++ str_of_nat (S k)) "info_records") with false.
  change (String.eqb ("vals_nod_var" ++ str_of_nat (S k)) "qa_records") with false.
  change (startswith ("vals_nod_var" ++ str_of_nat (S k)) "connect") with false.
  change (String.eqb ("vals_nod_var" ++ str_of_nat (S k)) "coord") with false.
  change (String.eqb ("vals_nod_var" ++ str_of_nat (S k)) "coordx") with false.
  change (String.eqb ("vals_nod_var" ++ str_of_nat (S k)) "coordy") with false.
  change (String.eqb ("vals_nod_var" ++ str_of_nat (S k)) "coordz") with false.
  change (String.eqb ("vals_nod_var" ++ str_of_nat (S k)) "name_nod_var") with false.
  unfold startswith. rewrite prefix_app. cbn [orb].
  change 12 with (String.length "vals_nod_var"). rewrite drop_str_app, slen_app, parse_numbered, E.
  change (Nat.eqb (String.length "vals_nod_var" + String.length (String a s)) (String.length "vals_nod_var")) with (Nat.eqb (12 + S (String.length s)) 12).
  destruct (Nat.eqb_spec (12 + S (String.length s)) 12); [lia|]. cbn [of_option bind nth_error]. do 3 f_equal. lia.
Qed.
Lemma step_set pts cs pn cn pd cd nn ns s l :
  step (ExState pts cs pn cn pd cd nn ns) (("node_ns" ++ s)%string, NcIds l)
  = Ok (ExState pts cs pn cn pd cd nn (ns ++ [map (fun i => (i - 1)%Z) l])).
Proof. destruct s; reflexivity. Qed.

Lemma fold_conn (bs : list (string * list cell)) tys : forall k pts cs pn cn pd cd nn ns,
  Forall2 (fun tr ty => dget (upper (fst tr)) exodus_to_meshio_type = Some ty) bs tys ->
  fold (ExState pts cs pn cn pd cd nn ns)
    (map (fun kc => (("connect" ++ str_of_nat (S (fst kc)))%string, NcConn (fst (snd kc)) (snd (snd kc)))) (combine (seq k (length bs)) bs))
  = Ok (ExState pts (cs ++ map (fun tr => Block (fst tr) (map (map (fun i => (i - 1)%Z)) (snd tr))) (combine tys (map snd bs))) pn cn pd cd nn ns).
Proof.
  revert tys; induction bs as [|[t rows] bs IH]; intros tys k pts cs pn cn pd cd nn ns H; inversion H as [|? ty ? tys' E1 E2]; subst; clear H.
  - cbn. now rewrite app_nil_r.
  - cbn [length seq combine map fst snd]. cbn [ex_fold]. rewrite (step_conn _ _ _ _ _ _ _ _ _ _ _ ty) by exact E1. cbn [bind].
    rewrite (IH tys') by exact E2. now rewrite <- app_assoc.
Qed.

Lemma zset_new {V} k (v : V) d : ~ In k (map fst d) -> zset k v d = d ++ [(k, v)].
Proof.
  induction d as [|[k' v'] d IH]; cbn; intros H; [reflexivity|]. destruct (Z.eqb_spec k k') as [->|]; [tauto|]. now rewrite IH by tauto.
Qed.

Lemma fold_nod (vals : list (string * pval F)) : forall k pts cs pn cn pd cd nn ns,
  (forall j, In j (map fst pd) -> (j < Z.of_nat k)%Z) ->
  fold (ExState pts cs pn cn pd cd nn ns)
    (map (fun kv => (numbered "vals_nod_var" (fst kv), NcNod [snd (snd kv)])) (combine (seq k (length vals)) vals))
  = Ok (ExState pts cs pn cn (pd ++ combine (map Z.of_nat (seq k (length vals))) (map snd vals)) cd nn ns).
Proof.
  induction vals as [|[nm v] vals IH]; intros k pts cs pn cn pd cd nn ns H.
  - cbn. now rewrite app_nil_r.
  - cbn [length seq combine map fst snd]. cbn [ex_fold]. rewrite step_nod. cbn [bind].
    rewrite zset_new. 2:{ intros X. apply H in X. lia. }
    rewrite IH. { now rewrite <- app_assoc. }
    intros j. rewrite map_app, in_app_iff. cbn. intros [X|[<-|[]]]; [apply H in X|]; lia.
Qed.
Lemma fold_sets (sets : list (string * list Z)) : forall k pts cs pn cn pd cd nn ns,
  fold (ExState pts cs pn cn pd cd nn ns)
    (map (fun kv => (numbered "node_ns" (fst kv), NcIds (map (fun i => (i + 1)%Z) (snd (snd kv))))) (combine (seq k (length sets)) sets))
  = Ok (ExState pts cs pn cn pd cd nn (ns ++ map snd sets)).
Proof.
  induction sets as [|[nm l] sets IH]; intros k pts cs pn cn pd cd nn ns.
  - cbn. now rewrite app_nil_r.
  - cbn [length seq combine map fst snd]. cbn [ex_fold]. unfold numbered at 1. rewrite step_set. cbn [bind]. rewrite IH, <- app_assoc. cbn [app].
    do 5 f_equal. rewrite map_map. rewrite <- (map_id l) at 2. apply map_ext. intros. lia.
Qed.

(** ** Points *)
Lemma transpose_back (w : nat) (pts : list (list F)) : Forall (fun p => length p = w) pts ->
  transpose zero (length pts) (transpose zero w pts) = pts.
Proof.
  intros H. unfold transpose. apply (nth_error_ext). intros i.
  destruct (nth_error pts i) as [p|] eqn:E.
  - assert (L : i < length pts) by (apply nth_error_Some; congruence).
    rewrite nth_error_map. rewrite (nth_error_nth' _ 0) by now rewrite seq_length. rewrite seq_nth by auto. cbn [option_map plus]. f_equal.
    rewrite map_map. rewrite Forall_forall in H. specialize (H p (nth_error_In _ _ E)).
    apply nth_error_ext. intros j. rewrite nth_error_map. destruct (nth_error p j) as [x|] eqn:Ex.
    + assert (Lj : j < w) by (rewrite <- H; apply nth_error_Some; congruence).
      rewrite (nth_error_nth' _ 0) by now rewrite seq_length. rewrite seq_nth by auto. cbn [option_map plus]. f_equal.
      rewrite (nth_indep _ zero (nth j (@nil F) zero)) by now rewrite map_length.
      rewrite (map_nth (fun r => nth j r zero) pts [] i). rewrite (nth_error_nth _ _ _ E). now apply nth_error_nth.
    + apply nth_error_None in Ex. rewrite H in Ex. rewrite (proj2 (nth_error_None _ _)) by now rewrite seq_length. reflexivity.
  - apply nth_error_None in E. apply nth_error_None. now rewrite map_length, seq_length.
Qed.

(** ** Grouping without components *)
Lemma steps_single names : no_components names -> forall k c k2 c2, steps names k c k2 c2 -> inv names k c ->
  c_single c = combine (firstn k names) (seq 0 k) -> c_double c = [] -> c_triple c = [] ->
  c_single c2 = combine (firstn k2 names) (seq 0 k2) /\ c_double c2 = [] /\ c_triple c2 = [].
Proof.
  intros [NX NR]. induction 1 as [k c|k c c' k2 c2 L S SS IH]; intros V E1 E2 E3; [auto|].
  pose proof (step_inv names k c c' L V S) as V'. apply IH; auto; clear IH.
  all: destruct S as [U|name U En Hx Hr|s iz U En Ez|s iy iz U En Ey Ez].
  all: try (apply truthy_some in Ez as [Ez _]; apply index_of_some in Ez; apply nth_error_In in Ez).
  all: try (apply truthy_some in Ey as [Ey _]; apply index_of_some in Ey; apply nth_error_In in Ey).
  all: try (exfalso; apply nth_error_In in En; now eauto).
  all: try assumption.
  - exfalso. apply V, grouped_in in U. rewrite E2, E3 in U. destruct U as [(s & H)|[(s & i & j & [] & _)|(s & i & j & l & [] & _)]].
    apply (v_lead1 _ _ _ V) in H. lia.
  - cbn [add_single c_single]. rewrite E1, seq_S. cbn [plus].
    assert (Lf : length (firstn k names) = k) by (apply firstn_length_le; lia).
    replace (firstn (S k) names) with (firstn k names ++ [name]).
    + rewrite combine_app_eq; [reflexivity|]. now rewrite seq_length.
    + rewrite (nth_error_split_at names k name En) at 2. rewrite firstn_app, Lf, firstn_firstn.
      replace (Nat.min (S k) k) with k by lia. now replace (S k - k) with 1 by lia.
Qed.
Lemma combine_trim {A B} (a : list A) : forall (b : list B), combine a b = combine (firstn (length b) a) b.
Proof. induction a as [|x a IH]; intros [|y b]; cbn; auto. now rewrite <- IH. Qed.

Lemma categorize_none names : no_components names -> ~ In ""%string names ->
  exists c, categorize names = Ok c /\ c_single c = combine names (seq 0 (length names)) /\ c_double c = [] /\ c_triple c = [].
Proof.
  intros N E. destruct (categorize_steps names E) as (c & Ec & S & V).
  destruct (steps_single names N _ _ _ _ S (inv_init names)) as (A & B & C); auto.
  exists c. split; auto. rewrite firstn_all in A. auto.
Qed.

Lemma zget_combine {V} (l : list V) : forall k i, zget (Z.of_nat (k + i)) (combine (map Z.of_nat (seq k (length l))) l) = nth_error l i.
Proof.
  induction l as [|x l IH]; intros k i; [now destruct i|]. cbn [length seq map combine zget].
  destruct (Z.eqb_spec (Z.of_nat (k + i)) (Z.of_nat k)).
  - replace i with 0 by lia. reflexivity.
  - destruct i as [|i]; [lia|]. replace (k + S i) with (S k + i) by lia. now rewrite IH.
Qed.

Lemma point_data_ok names (vals : list (pval F)) c : NoDup names -> length vals = length names ->
  c_single c = combine names (seq 0 (length names)) -> c_double c = [] -> c_triple c = [] ->
  ex_point_data (combine (map Z.of_nat (seq 0 (length vals))) vals) c = Ok (combine names vals).
Proof.
  intros N L A B C. unfold ex_point_data. rewrite B, C. cbn [mapM bind]. rewrite A.
  assert (G : forall nm vs (all : list (pval F)) k, length nm = length vs -> (forall i, nth_error vs i = nth_error all (k + i)) ->
    mapM (fun g : string * nat => do v <- of_option KeyError (zget (Z.of_nat (snd g)) (combine (map Z.of_nat (seq 0 (length all))) all)); Ok (fst g, v))
      (combine nm (seq k (length nm))) = Ok (combine nm vs)).
  { clear. induction nm as [|n nm IH]; intros [|v vs] all k Hl Hv; cbn in Hl; try discriminate; [reflexivity|].
    cbn [length seq combine mapM fst snd]. pose proof (zget_combine all 0 k) as Z0. cbn [plus] in Z0. pose proof (Hv 0) as Hv0. rewrite Nat.add_0_r in Hv0. rewrite Z0, <- Hv0. cbn [nth_error of_option bind].
    rewrite (IH vs all (S k)); [reflexivity|lia|]. intros i. specialize (Hv (S i)). cbn in Hv. rewrite Hv. f_equal. lia. }
  rewrite (G names vals vals 0) by auto. cbn [bind]. rewrite app_nil_r. f_equal. apply dupdate_nil.
  unfold dkeys. now rewrite map_fst_combine by lia.
Qed.

Definition tname (b : block) : string := match dget (btype b) meshio_to_exodus_type with Some t => t | None => ""%string end.
Lemma type_ok t : In t exodus_types -> exists e d, dget t meshio_to_exodus_type = Some e /\ dget (upper e) exodus_to_meshio_type = Some t /\ cellblock_dim t = Ok d.
Proof.
  intros H. unfold exodus_types in H. cbn [In] in H.
  repeat (destruct H as [<-|H]; [eexists _, _; repeat split; vm_compute; reflexivity|]). destruct H.
Qed.
Lemma conn_ok (bs : list block) : Forall (fun b => In (btype b) exodus_types) bs -> forall k,
  mapM (connect_var (F := F)) (combine (seq k (length bs)) bs)
  = Ok (map (fun kc => (("connect" ++ str_of_nat (S (fst kc)))%string, NcConn (fst (snd kc)) (snd (snd kc))))
          (let l := map (fun b => (tname b, map (map (fun i => (i + 1)%Z)) (bdata b))) bs in combine (seq k (length l)) l)).
Proof.
  cbv zeta. induction 1 as [|b bs Hb Hbs IH]; intros k; [reflexivity|]. cbn [length seq combine mapM map fst snd].
  unfold connect_var at 1. cbn [fst snd]. destruct (type_ok _ Hb) as (e & d & E1 & E2 & E3). rewrite E1. cbn [of_option bind].
  rewrite IH. cbn [bind]. assert (T : tname b = e) by (unfold tname; now rewrite E1). rewrite T. reflexivity.
Qed.
Lemma dims_ok (bs : list block) : Forall (fun b => In (btype b) exodus_types) bs -> exists ds, mapM (fun b => cellblock_dim (btype b)) bs = Ok ds.
Proof.
  induction 1 as [|b bs Hb Hbs IH]; [eexists; reflexivity|]. destruct (type_ok _ Hb) as (e & d & _ & _ & E3), IH as [ds IH].
  exists (d :: ds). cbn [mapM]. rewrite E3. cbn [bind]. now rewrite IH.
Qed.
Lemma names_ok l : Forall (fun s => 0 < String.length s <= 33) l -> mapM put_name l = Ok l.
Proof.
  induction 1 as [|s l [_ H] Hl IH]; [reflexivity|]. cbn [mapM]. unfold put_name at 1. apply Nat.leb_le in H. rewrite H. cbn [bind]. now rewrite IH.
Qed.
Lemma shift_back (b : block) : Block (btype b) (map (map (fun i => (i - 1)%Z)) (map (map (fun i => (i + 1)%Z)) (bdata b))) = b.
Proof.
  destruct b as [t rows]. cbn. f_equal. rewrite map_map. rewrite <- (map_id rows) at 2. apply map_ext. intros r.
  rewrite map_map. rewrite <- (map_id r) at 2. apply map_ext. intros. lia.
Qed.
Lemma cell_data_none k cs cd : ex_cell_data (F := F) [] [] k cs cd = cd.
Proof. revert k cd; induction cs as [|b cs IH]; intros k cd; cbn; auto. Qed.

Lemma dict_parts {V} (d : dict V) : combine (dkeys d) (map snd d) = d.
Proof. unfold dkeys. induction d as [|[k v] d IH]; cbn; [reflexivity|]. now rewrite IH. Qed.

Theorem roundtrip (m : ex_in F) : exodus_mesh m -> no_components (dkeys (ei_pd m)) ->
  exists f, write_exodus zero m = Ok f /\
    read_exodus zero f = Ok (ExOut (ei_points m) (ei_cells m) (ei_pd m) [] (ei_sets m)).
Proof.
  destruct m as [dim pts bs pd sets]. intros [Hd Hp Ht [Hn1 Hn2] [Hs1 Hs2]] Hc. cbn [ei_dim ei_points ei_cells ei_pd ei_sets] in *.
  unfold write_exodus. cbn [ei_dim ei_points ei_cells ei_pd ei_sets].
  destruct (Nat.ltb_spec dim 2); [lia|]. unfold enumerate at 1. rewrite conn_ok by exact Ht. cbv zeta. cbn [bind].
  rewrite (names_ok _ Hn2). cbn [bind]. rewrite (names_ok _ Hs2). cbn [bind]. eexists. split; [reflexivity|].
  unfold read_exodus. cbn [nc_nodes nc_vars].
  rewrite fold_app. cbn [app]. 
  match goal with |- context [ex_fold zero ?s0 [?a; ?b; ?c; ?d]] => set (st0 := s0); assert (E0 : ex_fold zero st0 [a; b; c; d] = Ok (ExState pts [] [] [] [] [] [] [])) end.
  { transitivity (Ok (A := ex_state F) (ExState (transpose zero (length (repeat (repeat zero 3) (length pts))) (transpose zero dim pts)) [] [] [] [] [] [] [])); [reflexivity|].
    rewrite repeat_length. now rewrite transpose_back. }
  rewrite E0. cbn [bind]. rewrite fold_app.
  rewrite (fold_conn _ (map btype bs)).
  2:{ clear - Ht. induction Ht as [|b bs Hb Hbs IH]; [constructor|]. cbn. constructor; auto. cbn [fst].
      destruct (type_ok _ Hb) as (e & d & E1 & E2 & E3). unfold tname. now rewrite E1. }
  cbn [bind app].
  assert (Eb : map (fun tr => Block (fst tr) (map (map (fun i => (i - 1)%Z)) (snd tr))) (combine (map btype bs) (map snd (map (fun b => (tname b, map (map (fun i => (i + 1)%Z)) (bdata b))) bs))) = bs).
  { clear. induction bs as [|b bs IH]; [reflexivity|]. cbn [map combine fst snd]. now rewrite shift_back, IH. }
  rewrite Eb. rewrite fold_app.
  assert (Epd : forall st, st = ExState pts bs [] [] [] [] [] [] ->
    fold st (match pd with [] => [] | _ :: _ => ("name_nod_var", NcNames (dkeys pd)) :: map (fun kv => (numbered "vals_nod_var" (fst kv), NcNod [snd (snd kv)])) (enumerate pd) end)
    = Ok (ExState pts bs (dkeys pd) [] (combine (map Z.of_nat (seq 0 (length pd))) (map snd pd)) [] [] [])).
  { intros st ->. destruct pd as [|kv pd]; [reflexivity|]. set (d := kv :: pd) in *.
    change (fold (ExState pts bs [] [] [] [] [] []) (("name_nod_var"%string, NcNames (dkeys d)) :: map (fun kv => (numbered "vals_nod_var" (fst kv), NcNod [snd (snd kv)])) (enumerate d)))
      with (fold (ExState pts bs (dkeys d) [] [] [] [] []) (map (fun kv => (numbered "vals_nod_var" (fst kv), NcNod [snd (snd kv)])) (enumerate d))).
    unfold enumerate. rewrite fold_nod by (intros j []). reflexivity. }
  rewrite (Epd _ eq_refl). cbn [bind].
  set (st1 := ExState _ _ _ _ _ _ _ _).
  assert (Es : fold st1 (match sets with [] => [] | _ :: _ => [("ns_prop1"%string, NcIds (map Z.of_nat (seq 0 (length sets)))); ("ns_names"%string, NcNames (dkeys sets))]
       ++ map (fun kv => (numbered "node_ns" (fst kv), NcIds (map (fun i => (i + 1)%Z) (snd (snd kv))))) (enumerate sets) end)
    = Ok (ExState pts bs (dkeys pd) [] (combine (map Z.of_nat (seq 0 (length pd))) (map snd pd)) [] (dkeys sets) (map snd sets))).
  { unfold st1. destruct sets as [|kv sets]; [reflexivity|]. set (d := kv :: sets) in *.
    match goal with |- fold ?s _ = _ => change (fold s ([("ns_prop1"%string, NcIds (map Z.of_nat (seq 0 (length d)))); ("ns_names"%string, NcNames (dkeys d))]
       ++ map (fun kv => (numbered "node_ns" (fst kv), NcIds (map (fun i => (i + 1)%Z) (snd (snd kv))))) (enumerate d)))
      with (fold (ExState pts bs (dkeys pd) [] (combine (map Z.of_nat (seq 0 (length pd))) (map snd pd)) [] (dkeys d) [])
         (map (fun kv => (numbered "node_ns" (fst kv), NcIds (map (fun i => (i + 1)%Z) (snd (snd kv))))) (enumerate d))) end.
    unfold enumerate. rewrite fold_sets. reflexivity. }
  cbn [app] in Es. rewrite Es. cbn [bind s_pnames s_cnames s_pd s_cd s_cells s_points s_nsnames s_ns map].
  assert (Ne : ~ In ""%string (dkeys pd)).
  { intros X. rewrite Forall_forall in Hn2. apply Hn2 in X. cbn in X. lia. }
  destruct (categorize_none _ Hc Ne) as (c & Ec & C1 & C2 & C3). rewrite Ec. cbn [bind].
  pose proof (point_data_ok (dkeys pd) (map snd pd) c Hn1) as P. rewrite map_length in P. rewrite P; auto.
  2:{ unfold dkeys. now rewrite map_length. }
  cbn [bind]. destruct (dims_ok _ Ht) as [ds Eds]. rewrite Eds. cbn [bind].
  rewrite cell_data_none, !dict_parts. now rewrite dupdate_nil.
Qed.

(** ** Element variables *)
Lemma digits_app d : forall r, all_digits d = true -> (match r with String c _ => digit_val c = None | EmptyString => True end) -> digits_of (d ++ r) = (d, r).
Proof.
  induction d as [|c d IH]; intros r H Hr; cbn in *.
  - destruct r as [|c r]; [reflexivity|]. cbn. now rewrite Hr.
  - apply andb_true_iff in H as [Hc H]. unfold is_digit in Hc. destruct (digit_val c); [|discriminate]. now rewrite (IH r).
Qed.
Lemma digits_nat k : all_digits (str_of_nat k) = true.
Proof. apply str_of_N_all_digits. Qed.
Definition elem_name (i b : nat) : string := ("vals_elem_var" ++ str_of_nat (S i) ++ "eb" ++ str_of_nat (S b))%string.
Lemma elem_index_ok i b : elem_index (elem_name i b) = (Z.of_nat i, Z.of_nat b).
Proof.
  unfold elem_index, elem_name. change 13 with (String.length "vals_elem_var"). rewrite drop_str_app.
  rewrite digits_app; [|apply digits_nat|reflexivity].
  change (startswith ("eb" ++ str_of_nat (S b)) "eb") with (String.prefix "eb" ("eb" ++ str_of_nat (S b))). rewrite prefix_app.
  change 2 with (String.length "eb"). rewrite drop_str_app.
  rewrite <- (str_app_nil_r (str_of_nat (S b))). rewrite digits_app; [|apply digits_nat|exact I]. cbn [fst].
  rewrite !parse_numbered. f_equal; lia.
Qed.
Lemma step_elem pts cs pn cn pd cd nn ns i b x :
  step (ExState pts cs pn cn pd cd nn ns) (elem_name i b, NcElem [x])
  = Ok (ExState pts cs pn cn pd (zset (Z.of_nat i) (zset (Z.of_nat b) x (match zget (Z.of_nat i) cd with Some d => d | None => [] end)) cd) nn ns).
Proof.
  unfold ex_step. rewrite elem_index_ok. unfold elem_name. set (s := (str_of_nat (S i) ++ _)%string).
  change (String.eqb ("vals_elem_var" ++ s) "info_records") with false.
  change (String.eqb ("vals_elem_var" ++ s) "qa_records") with false.
  change (startswith ("vals_elem_var" ++ s) "connect") with false.
  change (String.eqb ("vals_elem_var" ++ s) "coord") with false.
  change (String.eqb ("vals_elem_var" ++ s) "coordx") with false.
  change (String.eqb ("vals_elem_var" ++ s) "coordy") with false.
  change (String.eqb ("vals_elem_var" ++ s) "coordz") with false.
  change (String.eqb ("vals_elem_var" ++ s) "name_nod_var") with false.
  change (startswith ("vals_elem_var" ++ s) "vals_nod_var") with false.
  change (String.eqb ("vals_elem_var" ++ s) "name_elem_var") with false.
  unfold startswith. rewrite prefix_app. reflexivity.
Qed.

Lemma zget_app_here {V} k (v : V) d r : ~ In k (map fst d) -> zget k (d ++ (k, v) :: r) = Some v.
Proof.
  induction d as [|[k' v'] d IH]; cbn; intros H; [now rewrite Z.eqb_refl|]. destruct (Z.eqb_spec k k') as [->|]; [tauto|]. apply IH. tauto.
Qed.
Lemma zset_app_here {V} k (v w : V) d : ~ In k (map fst d) -> zset k w (d ++ [(k, v)]) = d ++ [(k, w)].
Proof.
  induction d as [|[k' v'] d IH]; cbn; intros H; [now rewrite Z.eqb_refl|]. destruct (Z.eqb_spec k k') as [->|]; [tauto|]. now rewrite IH by tauto.
Qed.
Lemma zget_none {V} k (d : zdict V) : ~ In k (map fst d) -> zget k d = None.
Proof. induction d as [|[k' v'] d IH]; cbn; intros H; [reflexivity|]. destruct (Z.eqb_spec k k') as [->|]; [tauto|]. apply IH. tauto. Qed.

Lemma fold_elem_blocks i (xs : list (list F)) : forall b pts cs pn cn pd cd d nn ns,
  ~ In (Z.of_nat i) (map fst cd) -> (forall j, In j (map fst d) -> (j < Z.of_nat b)%Z) ->
  fold (ExState pts cs pn cn pd (cd ++ [(Z.of_nat i, d)]) nn ns)
    (map (fun bv => (elem_name i (fst bv), NcElem [snd bv])) (combine (seq b (length xs)) xs))
  = Ok (ExState pts cs pn cn pd (cd ++ [(Z.of_nat i, d ++ combine (map Z.of_nat (seq b (length xs))) xs)]) nn ns).
Proof.
  induction xs as [|x xs IH]; intros b pts cs pn cn pd cd d nn ns H Hd; [cbn; now rewrite app_nil_r|].
  cbn [length seq combine map fst snd]. cbn [ex_fold]. rewrite step_elem, zget_app_here by auto. cbn [bind].
  rewrite (zset_new (Z.of_nat b)). 2:{ intros X. apply Hd in X. lia. }
  rewrite zset_app_here by auto. rewrite IH; auto.
  - now rewrite <- app_assoc.
  - intros j. rewrite map_app, in_app_iff. cbn. intros [X|[<-|[]]]; [apply Hd in X|]; lia.
Qed.
Lemma fold_elem_var i x (xs : list (list F)) pts cs pn cn pd cd nn ns :
  ~ In (Z.of_nat i) (map fst cd) ->
  fold (ExState pts cs pn cn pd cd nn ns)
    (map (fun bv => (elem_name i (fst bv), NcElem [snd bv])) (enumerate (x :: xs)))
  = Ok (ExState pts cs pn cn pd (cd ++ [(Z.of_nat i, combine (map Z.of_nat (seq 0 (length (x :: xs)))) (x :: xs))]) nn ns).
Proof.
  intros H. unfold enumerate. cbn [length seq combine map fst snd]. cbn [ex_fold]. rewrite step_elem, zget_none by auto. cbn [bind zset].
  rewrite zset_new by auto. rewrite fold_elem_blocks; auto. intros j. cbn. intros [<-|[]]. lia.
Qed.
Lemma fold_elems (vals : list (list (list F))) : forall i pts cs pn cn pd cd nn ns,
  Forall (fun v => v <> []) vals -> (forall j, In j (map fst cd) -> (j < Z.of_nat i)%Z) ->
  fold (ExState pts cs pn cn pd cd nn ns)
    (concat (map (fun iv => map (fun bv => (elem_name (fst iv) (fst bv), NcElem [snd bv])) (enumerate (snd iv))) (combine (seq i (length vals)) vals)))
  = Ok (ExState pts cs pn cn pd (cd ++ combine (map Z.of_nat (seq i (length vals))) (map (fun v => combine (map Z.of_nat (seq 0 (length v))) v) vals)) nn ns).
Proof.
  induction vals as [|v vals IH]; intros i pts cs pn cn pd cd nn ns Hv H; [cbn; now rewrite app_nil_r|].
  inversion Hv as [|? ? V1 V2]; subst. cbn [length seq combine map fst snd concat]. rewrite fold_app.
  destruct v as [|x xs]; [congruence|]. rewrite fold_elem_var. 2:{ intros X. apply H in X. lia. }
  cbn [bind]. rewrite IH; auto.
  - now rewrite <- app_assoc.
  - intros j. rewrite map_app, in_app_iff. cbn. intros [X|[<-|[]]]; [apply H in X|]; lia.
Qed.

Definition put_cd k k' (d : dict (list (list F))) (nv : string * list F) : dict (list (list F)) :=
  dset (fst nv) (match dget (fst nv) d with Some l => l | None => [] end ++ [slice k k' (snd nv)]) d.
Lemma dget_none_in {V} k (d : dict V) : ~ In k (dkeys d) -> dget k d = None.
Proof.
  unfold dkeys. induction d as [|[k' v] d IH]; cbn; intros H; [reflexivity|]. destruct (String.eqb_spec k k') as [->|]; [tauto|]. apply IH. tauto.
Qed.
Lemma dget_here {V} k (v : V) d r : ~ In k (dkeys d) -> dget k (d ++ (k, v) :: r) = Some v.
Proof.
  unfold dkeys. induction d as [|[k' v'] d IH]; cbn; intros H; [now rewrite String.eqb_refl|]. destruct (String.eqb_spec k k') as [->|]; [tauto|]. apply IH. tauto.
Qed.
Lemma dset_here {V} k (v w : V) d r : ~ In k (dkeys d) -> dset k w (d ++ (k, v) :: r) = d ++ (k, w) :: r.
Proof.
  unfold dkeys. induction d as [|[k' v'] d IH]; cbn; intros H; [now rewrite String.eqb_refl|]. destruct (String.eqb_spec k k') as [->|]; [tauto|]. now rewrite IH by tauto.
Qed.
Lemma put_first k k' names : forall vals d, NoDup names -> (forall n, In n names -> ~ In n (dkeys d)) -> length vals = length names ->
  fold_left (put_cd k k') (combine names vals) d = d ++ combine names (map (fun v => [slice k k' v]) vals).
Proof.
  induction names as [|n names IH]; intros [|v vals] d N D L; cbn in L; try discriminate; [cbn; now rewrite app_nil_r|].
  inversion N as [|? ? N1 N2]; subst. cbn [combine fold_left map]. unfold put_cd at 2. cbn [fst snd].
  rewrite dget_none_in by (apply D; now left). rewrite dset_new by (apply D; now left). rewrite IH; auto; [now rewrite <- app_assoc|].
  intros m Hm. unfold dkeys. rewrite map_app, in_app_iff. cbn. intros [X|[->|[]]]; [|tauto]. apply (D m); [now right|exact X].
Qed.
Lemma put_next k k' names : forall vals ls d, NoDup names -> (forall n, In n names -> ~ In n (dkeys d)) -> length vals = length names -> length ls = length names ->
  fold_left (put_cd k k') (combine names vals) (d ++ combine names ls) = d ++ combine names (map (fun lv => fst lv ++ [slice k k' (snd lv)]) (combine ls vals)).
Proof.
  induction names as [|n names IH]; intros [|v vals] [|l ls] d N D L1 L2; cbn in L1, L2; try discriminate; [reflexivity|].
  inversion N as [|? ? N1 N2]; subst. cbn [combine fold_left map fst snd]. unfold put_cd at 2. cbn [fst snd].
  rewrite dget_here by (apply D; now left). rewrite dset_here by (apply D; now left).
  change (d ++ (n, l ++ [slice k k' v]) :: combine names ls) with (d ++ [(n, l ++ [slice k k' v])] ++ combine names ls).
  rewrite app_assoc, IH; auto; [now rewrite <- app_assoc|].
  intros m Hm. unfold dkeys. rewrite map_app, in_app_iff. cbn. intros [X|[->|[]]]; [|tauto]. apply (D m); [now right|exact X].
Qed.

Lemma cell_data_step names vals k b cs cd : ex_cell_data (F := F) names vals k (b :: cs) cd = ex_cell_data names vals (k + blen b) cs (fold_left (put_cd k (k + blen b)) (combine names vals) cd).
Proof. reflexivity. Qed.

(** The remaining parts [rest] of every variable start at [k]. *)
Lemma cell_data_loop names : NoDup names -> forall cs k pre rest,
  length pre = length names -> length rest = length names -> Forall (fun p => length (concat p) = k) pre ->
  Forall (fun v => Forall2 (fun b x => length x = blen b) cs v) rest ->
  ex_cell_data names (map (fun pr => concat (fst pr) ++ concat (snd pr)) (combine pre rest)) k cs (combine names pre)
  = combine names (map (fun pr : list (list F) * list (list F) => fst pr ++ snd pr) (combine pre rest)).
Proof.
  intros N. induction cs as [|b cs IH]; intros k pre rest L1 L2 Hk Hr.
  - cbn [ex_cell_data]. f_equal. clear -L1 L2 Hr. revert rest names L1 L2 Hr. induction pre as [|p pre IH]; intros [|r rest] [|n names] L1 L2 Hr; cbn in *; try discriminate; auto.
    inversion Hr as [|? ? A B]; subst. inversion A; subst. rewrite app_nil_r. f_equal. now apply (IH rest names); [lia|lia|].
  - rewrite cell_data_step. set (vals := map _ (combine pre rest)).
    assert (Lv : length vals = length names) by (unfold vals; rewrite map_length, combine_length; lia).
    rewrite <- (app_nil_l (combine names pre)). rewrite put_next; auto. cbn [app].
    assert (E : map (fun lv : list (list F) * list F => fst lv ++ [slice k (k + blen b) (snd lv)]) (combine pre vals)
              = map (fun pr => fst pr ++ [hd [] (snd pr)]) (combine pre rest)).
    { clear Lv. unfold vals. clear -L1 L2 Hk Hr. revert rest names L1 L2 Hr. induction Hk as [|p pre Hp Hk IH]; intros [|r rest] [|n names] L1 L2 Hr; cbn in L1, L2; try discriminate; auto.
      inversion Hr as [|? ? A B]; subst. inversion A as [|? x ? xs X1 X2]; subst. cbn [combine map fst snd hd]. f_equal.
      - do 2 f_equal. cbn [concat]. unfold slice. rewrite skipn_app, skipn_all, Nat.sub_diag. cbn [skipn app].
        replace (length (concat p) + blen b - length (concat p)) with (length x + 0) by lia. rewrite firstn_app_2. cbn. now rewrite app_nil_r.
      - apply (IH rest names); auto. }
    rewrite E. set (pre' := map _ (combine pre rest)).
    assert (E2 : vals = map (fun pr => concat (fst pr) ++ concat (snd pr)) (combine pre' (map (@tl _) rest))).
    { unfold vals, pre'. clear -L1 L2 Hr. revert rest names L1 L2 Hr. induction pre as [|p pre IH]; intros [|r rest] [|n names] L1 L2 Hr; cbn in L1, L2; try discriminate; auto.
      inversion Hr as [|? ? A B]; subst. inversion A as [|? x ? xs X1 X2]; subst. cbn [combine map fst snd hd tl]. f_equal; [|apply (IH rest names); auto].
      rewrite concat_app. cbn [concat]. now rewrite app_nil_r, <- app_assoc. }
    rewrite E2, IH.
    + f_equal. unfold pre'. clear -L1 L2 Hr. revert rest names L1 L2 Hr. induction pre as [|p pre IH]; intros [|r rest] [|n names] L1 L2 Hr; cbn in L1, L2; try discriminate; auto.
      inversion Hr as [|? ? A B]; subst. inversion A as [|? x ? xs X1 X2]; subst. cbn [combine map fst snd hd tl]. f_equal; [|apply (IH rest names); auto].
      now rewrite <- app_assoc.
    + unfold pre'. rewrite map_length, combine_length. lia.
    + now rewrite map_length.
    + unfold pre'. clear -L1 L2 Hk Hr. revert rest names L1 L2 Hr. induction Hk as [|p pre Hp Hk IH]; intros [|r rest] [|n names] L1 L2 Hr; cbn in L1, L2; try discriminate; [constructor..|].
      inversion Hr as [|? ? A B]; subst. inversion A as [|? x ? xs X1 X2]; subst. cbn [combine map fst snd hd]. constructor; [|apply (IH rest names); auto].
      rewrite concat_app, app_length. cbn [concat]. rewrite app_nil_r. now rewrite X1.
    + clear -Hr. induction Hr as [|r rest A B IH]; [constructor|]. cbn. constructor; auto. now inversion A.
Qed.
Lemma cell_data_ok names cs (vals : list (list (list F))) : NoDup names -> length vals = length names -> cs <> [] ->
  Forall (fun v => Forall2 (fun b x => length x = blen b) cs v) vals ->
  ex_cell_data names (map (@concat F) vals) 0 cs [] = combine names vals.
Proof.
  intros N L Hc Hv. destruct cs as [|b cs]; [congruence|]. rewrite cell_data_step.
  rewrite put_first; auto. 2:{ now rewrite map_length. }
  cbn [app].
  assert (E1 : map (fun v => [slice 0 (0 + blen b) v]) (map (@concat F) vals) = map (fun v => [hd [] v]) vals).
  { rewrite map_map. apply map_ext_in. intros v Iv. rewrite Forall_forall in Hv. specialize (Hv v Iv). inversion Hv as [|? x ? xs X1 X2]; subst. cbn [hd concat].
    unfold slice. cbn [plus skipn]. rewrite Nat.sub_0_r, <- X1. f_equal. replace (length x) with (length x + 0) by lia. rewrite firstn_app_2. cbn. now rewrite app_nil_r. }
  rewrite E1.
  assert (E2 : map (@concat F) vals = map (fun pr => concat (fst pr) ++ concat (snd pr)) (combine (map (fun v => [hd [] v]) vals) (map (@tl _) vals))).
  { clear -Hv. induction Hv as [|v vals A B IH]; [reflexivity|]. cbn [map combine fst snd]. rewrite IH. f_equal. inversion A; subst. cbn. now rewrite app_nil_r. }
  rewrite E2, cell_data_loop; auto.
  - f_equal. clear -Hv. induction Hv as [|v vals A B IH]; [reflexivity|]. cbn [map combine fst snd]. rewrite IH. f_equal. now inversion A.
  - now rewrite map_length.
  - now rewrite map_length.
  - clear -Hv. induction Hv as [|v vals A B IH]; [constructor|]. cbn. constructor; auto. inversion A; subst. cbn. rewrite app_nil_r. auto.
  - clear -Hv. induction Hv as [|v vals A B IH]; [constructor|]. cbn. constructor; auto. now inversion A.
Qed.

Lemma conn_blocks (conns : list (string * list cell)) tys :
  Forall2 (fun tr ty => dget (upper (fst tr)) exodus_to_meshio_type = Some ty /\ In ty exodus_types) conns tys ->
  Forall (fun b => In (btype b) exodus_types) (map (fun tr => Block (fst tr) (map (map (fun i => (i - 1)%Z)) (snd tr))) (combine tys (map snd conns))).
Proof. induction 1 as [|c ty conns tys [_ H] Hs IH]; cbn; constructor; auto. Qed.

Theorem read_elements n coords (conns : list (string * list cell)) tys names vals :
  Forall2 (fun tr ty => dget (upper (fst tr)) exodus_to_meshio_type = Some ty /\ In ty exodus_types) conns tys ->
  conns <> [] -> NoDup names -> length vals = length names ->
  Forall (fun v => Forall2 (fun c x => length x = length (snd c)) conns v) vals ->
  read_exodus zero (Nc n (("coord"%string, NcMat coords) :: conn_vars conns ++ ("name_elem_var"%string, NcNames names) :: elem_vars vals))
  = Ok (ExOut (transpose zero n coords)
         (map (fun tr => Block (fst tr) (map (map (fun i => (i - 1)%Z)) (snd tr))) (combine tys (map snd conns)))
         [] (combine names vals) []).
Proof.
  intros Ht Hc N L Hv. unfold read_exodus. cbn [nc_nodes nc_vars].
  change (("coord"%string, NcMat coords) :: conn_vars conns ++ ("name_elem_var"%string, NcNames names) :: elem_vars vals)
    with ([("coord"%string, NcMat coords)] ++ conn_vars conns ++ [("name_elem_var"%string, NcNames names)] ++ elem_vars vals).
  rewrite fold_app.
  match goal with |- context [fold ?s0 [?a]] => assert (E0 : fold s0 [a] = Ok (ExState (transpose zero (length (repeat (repeat zero 3) n)) coords) [] [] [] [] [] [] [])) by reflexivity end.
  rewrite E0, repeat_length. cbn [bind]. rewrite fold_app. unfold conn_vars, enumerate at 1.
  rewrite (fold_conn _ tys). 2:{ clear -Ht. induction Ht as [|c ty conns tys [H _] Hs IH]; constructor; auto. }
  cbn [bind app]. set (bs := map _ (combine tys (map snd conns))).
  match goal with |- context [fold ?s0 (?a :: ?l)] => change (fold s0 (a :: l)) with (fold (ExState (transpose zero n coords) bs [] names [] [] [] []) l) end.
  unfold elem_vars. change (fun iv : nat * list (list F) => map (fun bv => (("vals_elem_var" ++ str_of_nat (S (fst iv)) ++ "eb" ++ str_of_nat (S (fst bv)))%string, NcElem [snd bv])) (enumerate (snd iv)))
    with (fun iv : nat * list (list F) => map (fun bv => (elem_name (fst iv) (fst bv), NcElem [snd bv])) (enumerate (snd iv))).
  unfold enumerate at 2. rewrite fold_elems.
  2:{ apply Forall_forall. intros v Iv E. rewrite Forall_forall in Hv. specialize (Hv v Iv). subst v. inversion Hv. subst. congruence. }
  2:{ intros j []. }
  cbn [bind s_pnames s_cnames s_pd s_cd s_cells s_points s_nsnames s_ns map app].
  change (categorize []) with (Ok (Cats [] [] [] [])). cbn [bind]. unfold ex_point_data. cbn [c_single c_double c_triple mapM bind app dupdate fold_left combine].
  pose proof (conn_blocks _ _ Ht) as Hb. fold bs in Hb. destruct (dims_ok _ Hb) as [ds Eds]. rewrite Eds. cbn [bind]. do 2 f_equal.
  match goal with |- ex_cell_data _ ?v _ _ _ = _ => replace v with (map (@concat F) vals) end.
  - apply cell_data_ok; auto.
    + unfold bs. destruct Ht; [congruence|]. discriminate.
    + revert Hv. apply Forall_impl. intros v. unfold bs. clear -Ht. revert v. induction Ht as [|c ty conns tys H Hs IH]; intros v Hv; inversion Hv; subst; constructor; auto.
      unfold blen. cbn. now rewrite map_length.
  - clear. generalize 0 at 1. induction vals as [|v vals IH]; intros k; [reflexivity|]. cbn [length seq map combine snd]. rewrite <- IH. f_equal. f_equal.
    rewrite map_snd_combine; [reflexivity|]. now rewrite map_length, seq_length.
Qed.
End S.
