(** Lemmas about MED files (C55, C64). *)
From Coq Require Import Lia ZArith Permutation Sorting.Sorted.
From Verif.Lib Require Import Base Facts Facts2 Text TextFacts Lines LinesFacts.
From Verif.Model Require Import Core Tables Abaqus Numpy Hdf5 Hdf Med.
From Verif.Spec Require Import Core Hdf Med.
From Verif.Proofs Require Import Xdmf Gmsh Gmsh22File Abaqus ExodusFile NetgenFile Numpy Hdf5 Hdf Dolfin.
Import Model.Numpy Model.Hdf5 Model.Hdf Model.Med Spec.Hdf Spec.Med.

Local Arguments str_of_Z : simpl never.
Local Arguments str_of_nat : simpl never.
Local Open Scope nat_scope.
(** ** Types *)
Definition mname (t : string) : string := match dget t meshio_to_med_type with Some x => x | None => "" end.
Lemma mname_all : forallb (fun t => match dget t meshio_to_med_type with
   | Some x => match dget x med_to_meshio_type with Some t' => String.eqb t t' | None => false end && negb (char_in "/" x)
      && String.eqb (after_dot ("NOE." ++ x)%string) x && String.eqb (after_dot ("MAI." ++ x)%string) x
      && match dget t num_nodes_per_cell with Some g => Nat.ltb 0 g | None => true end
      && negb (char_in "." x)
   | None => false end) (dkeys meshio_to_med_type) = true.
Proof. now vm_compute. Qed.
Lemma mname_ok t : In t (dkeys meshio_to_med_type) ->
  dget t meshio_to_med_type = Some (mname t) /\ dget (mname t) med_to_meshio_type = Some t /\ plain (mname t) /\
  after_dot ("NOE." ++ mname t)%string = mname t /\ after_dot ("MAI." ++ mname t)%string = mname t /\
  (forall g, dget t num_nodes_per_cell = Some g -> 0 < g).
Proof.
  intros H. pose proof mname_all as A. rewrite forallb_forall in A. specialize (A t H). unfold mname.
  destruct (dget t meshio_to_med_type) as [x|]; [|discriminate]. rewrite !andb_true_iff in A. destruct A as (((((A1 & A2) & A3) & A4) & A5) & A6).
  destruct (dget x med_to_meshio_type) as [t'|]; [|discriminate]. apply String.eqb_eq in A1, A3, A4. subst t'.
  repeat split; auto.
  - unfold plain. now destruct (char_in "/" x).
  - intros g E. rewrite E in A5. now apply Nat.ltb_lt.
Qed.
Lemma mname_inj t1 t2 : In t1 (dkeys meshio_to_med_type) -> In t2 (dkeys meshio_to_med_type) -> mname t1 = mname t2 -> t1 = t2.
Proof. intros H1 H2 E. apply mname_ok in H1, H2. destruct H1 as (_ & A & _), H2 as (_ & B & _). rewrite E in A. congruence. Qed.

Section Med.
Context {F : Type}.
(** ** Arrays *)
Definition hv_ok (v : hval F) : Prop := count v = size (hv_shape v).
Lemma array_hv n v : array_of n v -> hv_ok v.
Proof. intros (s & E & C). unfold hv_ok. rewrite E. exact C. Qed.
Lemma of_f_n1 {A} n (l : list A) : length l = n -> of_f [n; 1] l = l.
Proof.
  intros L. change (of_f [n; 1] l) with (concat (map (of_f [1]) (transposed n (rows_of 1 n l)))).
  assert (R : map (of_f [1]) (transposed n (rows_of 1 n l)) = transposed n (rows_of 1 n l)).
  { rewrite <- (map_id (transposed n (rows_of 1 n l))) at 2. apply map_ext_in. intros r Hr. apply of_f_1.
    rewrite (proj1 (Forall_forall _ _) (transposed_rect (rows_of 1 n l) n ltac:(apply rows_of_rect; lia)) r Hr). apply rows_of_length. }
  rewrite R. rewrite <- (of_f_1 n l) at 2 by exact L. cbn [of_f]. change (size []) with 1. now rewrite map_concat_id.
Qed.
Lemma reshape_of {A} s (l : list A) : length l = size s -> reshape_f s (Nda [length l] l) = Ok (Nda s (of_f s l)).
Proof. intros H. unfold reshape_f. cbn [nd_flat nd_shape]. rewrite H, Nat.eqb_refl. rewrite <- H. now rewrite to_f_1. Qed.
Lemma nodal_back {A} (a : nda A) n : nd_ok a -> n <> 0 -> (nd_shape a = [n] \/ exists c, nd_shape a = [n; c]) ->
  nodal_array n (flatten_f a) = Ok (Nda (squeezed_shape (nd_shape a)) (nd_flat a)).
Proof.
  intros H Hn [E|(c & E)]; unfold nodal_array.
  - unfold nd_ok in H. rewrite E in H. unfold size in H. cbn in H. unfold reshape_f_rest. replace (Nat.eqb (size [n]) 0) with false by (symmetry; apply Nat.eqb_neq; unfold size; cbn; lia).
    unfold flatten_f. cbn [nd_flat nd_shape]. rewrite E, to_f_1 by lia. replace (length (nd_flat a) / size [n]) with 1 by (rewrite H; unfold size; cbn; rewrite Nat.div_same; lia).
    cbn [app]. rewrite reshape_of by (unfold size; cbn; lia). cbn [bind]. rewrite of_f_n1 by lia. reflexivity.
  - rewrite (reshape_rest_flatten a [n] c) by (auto; unfold size; cbn; lia). cbn [bind]. unfold squeeze_last. rewrite E.
    destruct c as [|[|c]]; cbn [squeezed_shape]; try reflexivity; rewrite <- E; now destruct a.
Qed.
Lemma cell_back {A} (a : nda A) n g : nd_ok a -> n <> 0 -> g <> 0 -> (g = 1 /\ (nd_shape a = [n] \/ exists c, nd_shape a = [n; c]) \/ exists c, nd_shape a = [n; g; c]) ->
  cell_array n g (flatten_f a) = Ok (Nda (squeezed_shape (nd_shape a)) (nd_flat a)).
Proof.
  intros H Hn Hg [(-> & [E|(c & E)])|(c & E)]; unfold cell_array.
  - unfold nd_ok in H. rewrite E in H. unfold size in H. cbn in H. unfold reshape_f_rest. replace (Nat.eqb (size [n; 1]) 0) with false by (symmetry; apply Nat.eqb_neq; unfold size; cbn; lia).
    unfold flatten_f. cbn [nd_flat nd_shape]. rewrite E, to_f_1 by lia. replace (length (nd_flat a) / size [n; 1]) with 1 by (rewrite H; unfold size; cbn; rewrite Nat.div_same; lia).
    cbn [app]. rewrite reshape_of by (unfold size; cbn; lia). cbn [bind nd_shape nth nd_flat]. rewrite of_f_1_mid by lia. rewrite of_f_n1 by lia. reflexivity.
  - unfold nd_ok in H. rewrite E in H. unfold size in H. cbn in H. rewrite Nat.mul_1_r in H. unfold reshape_f_rest. replace (Nat.eqb (size [n; 1]) 0) with false by (symmetry; apply Nat.eqb_neq; unfold size; cbn; lia).
    unfold flatten_f. cbn [nd_flat nd_shape]. rewrite E.
    assert (L : length (to_f [n; c] (nd_flat a)) = length (nd_flat a)) by (rewrite to_f_length; unfold size; cbn; lia). rewrite <- L at 1. 
    replace (length (to_f [n; c] (nd_flat a)) / size [n; 1]) with c by (rewrite L, H; unfold size; cbn; rewrite !Nat.mul_1_r, Nat.mul_comm, Nat.div_mul; lia).
    cbn [app]. rewrite reshape_of by (rewrite L; unfold size; cbn; lia). cbn [bind nd_shape nth nd_flat]. rewrite of_f_1_mid by lia. rewrite of_to_f by (unfold size; cbn; lia).
    cbn [Nat.eqb]. unfold squeeze_last. cbn [nd_shape nd_flat]. destruct c as [|[|c]]; cbn [squeezed_shape]; reflexivity.
  - rewrite (reshape_rest_flatten a [n; g] c) by (auto; unfold size; cbn; lia). cbn [bind]. rewrite E. cbn [nth].
    destruct (Nat.eqb_spec g 1) as [->|Hg1].
    + unfold squeeze_last. cbn [nd_shape nd_flat]. destruct c as [|[|c]]; cbn [squeezed_shape]; reflexivity.
    + destruct g as [|[|g]]; try lia. cbn [squeezed_shape]. rewrite <- E. now destruct a.
Qed.
(** ** Fields *)
Inductive sitem : Type := SP (v : hval F) | SC (s : support) (t : string) (v : hval F).
Definition node (x : sitem) : string * h5 F :=
  match x with SP v => ("NOE", med_profile_group NOEU v) | SC s t v => (supp_name s (mname t), med_profile_group s v) end.
Definition good_item (types : list string) (x : sitem) : Prop :=
  match x with
  | SP v => hv_ok v /\ exists n, n <> 0 /\ (hv_shape v = [n] \/ exists c, hv_shape v = [n; c])
  | SC s t v => In t types /\ In t (dkeys meshio_to_med_type) /\ hv_ok v /\
      exists n, n <> 0 /\ (s = ELEM /\ (hv_shape v = [n] \/ exists c, hv_shape v = [n; c]) \/ s = ELNO /\ exists g c, g <> 0 /\ hv_shape v = [n; g; c])
  end.
Definition position (t : string) (types : list string) : nat := hd 0 (where_ (String.eqb t) types).
Definition apply_item (types : list string) (name : string) (x : sitem) (d : med_data (F := F)) : med_data :=
  match x with
  | SP v => MedData (dset name (squeezed v) (md_pd d)) (md_cd d) (md_nom d)
  | SC s t v => MedData (md_pd d) (dset name (upd (position t types) (Some (squeezed v)) (match dget name (md_cd d) with Some l => l | None => repeat None (length types) end)) (md_cd d)) (md_nom d)
  end.
Lemma attr_int_group n z a (its : list (string * h5 F)) : attr_int (Group ((n, AInt z) :: a) its) n = Ok z.
Proof. unfold attr_int. cbn [h5_attrs dget]. now rewrite String.eqb_refl. Qed.
Lemma attr_nat_group n z a (its : list (string * h5 F)) : attr_int (Group ((n, nat_attr z) :: a) its) n = Ok (Z.of_nat z).
Proof. apply attr_int_group. Qed.
Lemma attr_str_group n z a (its : list (string * h5 F)) : attr_str (Group ((n, AStr z) :: a) its) n = Ok z.
Proof. unfold attr_str. cbn [h5_attrs dget]. now rewrite String.eqb_refl. Qed.
Lemma profile_ok s (v : hval F) : profile_of (med_profile_group s v) =
  Ok (Group [("NBR", nat_attr (nth 0 (hv_shape v) 0)); ("NGA", nat_attr (match s with ELNO => nth 1 (hv_shape v) 0 | _ => 1 end))] [("CO", Dataset [] (hv_flatten_f v))]).
Proof. reflexivity. Qed.
Lemma nodal_ok v n : hv_ok v -> n <> 0 -> (hv_shape v = [n] \/ exists c, hv_shape v = [n; c]) -> read_nodal (med_profile_group NOEU v) = Ok (squeezed v).
Proof.
  intros H Hn E. unfold read_nodal. rewrite profile_ok. cbn [bind]. rewrite attr_nat_group. cbn [bind]. rewrite get_here. cbn [bind h5_value]. rewrite Nat2Z.id.
  assert (En : nth 0 (hv_shape v) 0 = n) by (destruct E as [-> | (c & ->)]; reflexivity). rewrite En.
  destruct v as [a|a]; cbn [hv_flatten_f hv_map hv_shape squeezed] in *; rewrite nodal_back by auto; reflexivity.
Qed.
Lemma cellwise_ok s v n g : hv_ok v -> n <> 0 -> g <> 0 ->
  (s = ELEM /\ g = 1 /\ (hv_shape v = [n] \/ exists c, hv_shape v = [n; c]) \/ s = ELNO /\ exists c, hv_shape v = [n; g; c]) ->
  read_cellwise (med_profile_group s v) = Ok (squeezed v).
Proof.
  intros H Hn Hg E. unfold read_cellwise. rewrite profile_ok. cbn [bind]. rewrite attr_nat_group. cbn [bind].
  match goal with |- context [attr_int (Group [?x; ?y] ?z) "NGA"] => change (attr_int (Group [x; y] z) "NGA") with (attr_int (Group [y] z) "NGA") end.
  rewrite attr_nat_group. cbn [bind]. rewrite get_here. cbn [bind h5_value]. rewrite !Nat2Z.id.
  assert (En : nth 0 (hv_shape v) 0 = n) by (destruct E as [(_ & _ & [-> | (c & ->)]) | (_ & c & ->)]; reflexivity). rewrite En.
  assert (Eg : match s with ELNO => nth 1 (hv_shape v) 0 | _ => 1 end = g) by (destruct E as [(-> & -> & _) | (-> & c & ->)]; reflexivity). rewrite Eg.
  destruct v as [a|a]; cbn [hv_flatten_f hv_map hv_shape squeezed] in *; rewrite cell_back; auto; destruct E as [(_ & E1 & E2) | (_ & E)]; auto.
Qed.
Lemma support_ok types name x d : good_item types x -> read_support types name (node x) d = Ok (apply_item types name x d).
Proof.
  destruct x as [v|s t v]; intros G; cbn [good_item] in G; unfold read_support.
  - destruct G as (H & n & Hn & E). cbn [node fst snd]. change (String.eqb "NOE" "NOE") with true. cbv iota. rewrite (nodal_ok v n) by auto. reflexivity.
  - destruct G as (Ht & Hm & H & n & Hn & E). destruct (mname_ok t Hm) as (_ & E2 & _ & E3 & E4 & _).
    assert (Hs : (fst (node (SC s t v)) = "NOE." ++ mname t \/ fst (node (SC s t v)) = "MAI." ++ mname t)%string) by (destruct E as [(-> & _) | (-> & _)]; cbn; auto).
    assert (Ed : after_dot (fst (node (SC s t v))) = mname t) by (destruct Hs as [-> | ->]; auto).
    assert (En : String.eqb (fst (node (SC s t v))) "NOE" = false) by (destruct Hs as [-> | ->]; [|reflexivity]; destruct (mname t); reflexivity).
    rewrite En, Ed, E2. cbn [of_option bind]. rewrite (proj2 (Facts.smem_In _ _) Ht). cbn [negb].
    assert (Er : read_cellwise (snd (node (SC s t v))) = Ok (squeezed v)).
    { cbn [node snd]. destruct E as [(-> & E) | (-> & g & c & Hg & E)]; [apply (cellwise_ok _ _ n 1)|apply (cellwise_ok _ _ n g)]; eauto 6. }
    rewrite Er. reflexivity.
Qed.
Lemma supports_ok types name l : forall d, Forall (good_item types) l -> read_supports types name (map node l) d = Ok (fold_left (fun d x => apply_item types name x d) l d).
Proof.
  induction l as [|x l IH]; intros d H; [reflexivity|]. inversion H; subst. cbn [map read_supports fold_left]. rewrite support_ok by auto. cbn [bind]. now apply IH.
Qed.
(** The effect of the items of a field *)
Definition points_of (l : list sitem) : list (hval F) := flat_map (fun x => match x with SP v => [v] | _ => [] end) l.
Definition cells_at (types : list string) (l : list sitem) : list (nat * hval F) :=
  flat_map (fun x => match x with SC _ t v => [(position t types, squeezed v)] | _ => [] end) l.
Definition old_of (types : list string) (name : string) (d : med_data (F := F)) : list (option (hval F)) :=
  match dget name (md_cd d) with Some l => l | None => repeat None (length types) end.
Lemma apply_items types name l : forall d, let d' := fold_left (fun d x => apply_item types name x d) l d in
  md_nom d' = md_nom d /\
  (forall k, dget k (md_pd d') = if String.eqb k name then match rev (points_of l) with v :: _ => Some (squeezed v) | [] => dget k (md_pd d) end else dget k (md_pd d)) /\
  (forall k, dget k (md_cd d') = if String.eqb k name then match cells_at types l with [] => dget k (md_cd d) | its => Some (fills its (old_of types name d)) end else dget k (md_cd d)) /\
  (NoDup (dkeys (md_pd d)) -> NoDup (dkeys (md_pd d'))) /\ (NoDup (dkeys (md_cd d)) -> NoDup (dkeys (md_cd d'))).
Proof.
  induction l as [|x l IH]; intros d; cbn [fold_left].
  - repeat split; auto; intros k; now destruct (String.eqb k name).
  - destruct (IH (apply_item types name x d)) as (I1 & I2 & I3 & I4 & I5). cbv zeta in *. clear IH. destruct x as [v|s t v]; cbn [apply_item md_pd md_cd md_nom] in *.
    + split; [exact I1|split; [|split; [|split]]].
      * intros k. rewrite I2. cbn [points_of flat_map]. fold (points_of l). cbn [app rev]. destruct (String.eqb_spec k name) as [->|Hk].
        -- destruct (rev (points_of l)); cbn [app]; [now rewrite dget_dset_same|reflexivity].
        -- now rewrite dget_dset_other by auto.
      * intros k. rewrite I3. reflexivity.
      * intros N. apply I4. now apply NoDup_dset.
      * exact I5.
    + split; [exact I1|split; [|split; [|split]]].
      * intros k. rewrite I2. reflexivity.
      * intros k. rewrite I3. cbn [cells_at flat_map]. fold (cells_at types l). cbn [app]. destruct (String.eqb_spec k name) as [->|Hk].
        -- unfold old_of at 1. cbn [md_cd]. rewrite dget_dset_same. fold (old_of types name d). unfold fills. cbn [fold_left fst snd]. now destruct (cells_at types l).
        -- now rewrite dget_dset_other by auto.
      * exact I4.
      * intros N. apply I5. now apply NoDup_dset.
Qed.
(** A field: the text of its component names, and its items *)
Definition fnode (f : string * list sitem) : h5 F := Group [("NOM", AStr (fst f))] [(med_step, Group [] (map node (snd f)))].
Definition good_field (types : list string) (f : string * list sitem) : Prop :=
  Forall (good_item types) (snd f) /\ NoDup (map fst (cells_at types (snd f))) /\ length (points_of (snd f)) <= 1.
Definition field_point (o : option (string * list sitem)) (old : option (hval F)) : option (hval F) :=
  match o with Some (_, l) => match points_of l with v :: _ => Some (squeezed v) | [] => old end | None => old end.
Definition field_cells (types : list string) (o : option (string * list sitem)) (old : option (list (option (hval F)))) : option (list (option (hval F))) :=
  match o with
  | Some (_, l) => match cells_at types l with [] => old | its => Some (fills its (match old with Some x => x | None => repeat None (length types) end)) end
  | None => old
  end.
Lemma short_perm {A} (a b : list A) : Permutation a b -> length b <= 1 -> a = b.
Proof.
  intros P L. destruct b as [|x [|y b]]; cbn in L; try lia.
  - now apply Permutation_sym, Permutation_nil in P.
  - now apply Permutation_sym, Permutation_length_1_inv in P.
Qed.
Lemma field_ok types name f d : good_field types f -> exists d', read_field types (name, fnode f) d = Ok d' /\
  md_nom d' = Some (match md_nom d with Some l => l | None => [] end ++ [split_ws (fst f)]) /\
  (forall k, dget k (md_pd d') = field_point (if String.eqb k name then Some f else None) (dget k (md_pd d))) /\
  (forall k, dget k (md_cd d') = field_cells types (if String.eqb k name then Some f else None) (dget k (md_cd d))) /\
  (NoDup (dkeys (md_pd d)) -> NoDup (dkeys (md_pd d'))) /\ (NoDup (dkeys (md_cd d)) -> NoDup (dkeys (md_cd d'))).
Proof.
  destruct f as [nm sup]. intros (G & N & L). cbn [snd fst] in *.
  destruct (Permutation_map_inv _ _ (sorted_perm (map node sup))) as (sup' & E & P).
  set (nom' := Some (match md_nom d with Some l => l | None => [] end ++ [split_ws nm])).
  set (d0 := MedData (md_pd d) (md_cd d) nom').
  assert (R : read_field types (name, fnode (nm, sup)) d = read_supports types name (map node sup') d0).
  { unfold read_field, fnode. cbn [fst snd h5_attrs dget]. change (String.eqb "NOM" "NOM") with true. cbv iota. cbn [h5_items bind]. unfold sorted_items at 1. cbn [fold_right insert_item].
    cbn [bind]. rewrite <- E. reflexivity. }
  rewrite R. rewrite supports_ok by (eapply Permutation_Forall; [exact P|exact G]). eexists. split; [reflexivity|].
  destruct (apply_items types name sup' d0) as (A1 & A2 & A3 & A4 & A5). cbv zeta in *.
  assert (Pp : points_of sup' = points_of sup) by (apply short_perm; [apply Permutation_flat_map; now symmetry|exact L]).
  assert (Pc : Permutation (cells_at types sup) (cells_at types sup')) by (apply Permutation_flat_map; exact P).
  split; [exact A1|split; [|split; [|split; assumption]]].
  - intros k. rewrite A2, Pp. destruct (String.eqb k name); [|reflexivity]. cbn [field_point d0 md_pd]. destruct (points_of sup) as [|v [|w r]]; cbn in L |- *; try reflexivity. lia.
  - intros k. rewrite A3. destruct (String.eqb_spec k name) as [->|]; [|reflexivity]. cbn [field_cells].
    unfold old_of. cbn [d0 md_cd]. destruct (cells_at types sup) as [|c r] eqn:Ec.
    + apply Permutation_nil in Pc. rewrite Pc. reflexivity.
    + destruct (cells_at types sup') as [|c' r'] eqn:Ec'; [apply Permutation_sym, Permutation_nil in Pc; discriminate|]. f_equal. symmetry. now apply fills_perm.
Qed.
Lemma fields_ok types fs : forall d, NoDup (dkeys fs) -> Forall (fun kf => good_field types (snd kf)) fs ->
  exists d', read_fields types (map (fun kf => (fst kf, fnode (snd kf))) fs) d = Ok d' /\
  md_nom d' = match fs with [] => md_nom d | _ => Some (match md_nom d with Some l => l | None => [] end ++ map (fun kf => split_ws (fst (snd kf))) fs) end /\
  (forall k, dget k (md_pd d') = field_point (dget k fs) (dget k (md_pd d))) /\
  (forall k, dget k (md_cd d') = field_cells types (dget k fs) (dget k (md_cd d))) /\
  (NoDup (dkeys (md_pd d)) -> NoDup (dkeys (md_pd d'))) /\ (NoDup (dkeys (md_cd d)) -> NoDup (dkeys (md_cd d'))).
Proof.
  induction fs as [|[name f] fs IH]; intros d N G.
  - exists d. cbn. auto 10.
  - cbn in N. inversion N as [|? ? N1 N2]; subst. inversion G as [|? ? G1 G2]; subst. cbn [snd fst] in *.
    destruct (field_ok types name f d G1) as (d1 & E1 & M1 & P1 & C1 & X1 & Y1).
    destruct (IH d1 N2 G2) as (d2 & E2 & M2 & P2 & C2 & X2 & Y2). exists d2.
    cbn [map read_fields fst snd]. rewrite E1. cbn [bind]. split; [exact E2|]. split; [|split; [|split; [|split; auto]]].
    + rewrite M2, M1. destruct fs; [reflexivity|]. cbn [map]. now rewrite <- app_assoc.
    + intros k. rewrite P2, P1. cbn [dget]. destruct (String.eqb_spec k name) as [->|]; [|reflexivity]. now rewrite (proj2 (dget_None name fs) N1).
    + intros k. rewrite C2, C1. cbn [dget]. destruct (String.eqb_spec k name) as [->|]; [|reflexivity]. now rewrite (proj2 (dget_None name fs) N1).
Qed.

(** ** Writing the fields *)
Definition tree (fs : dict (string * list sitem)) : h5 F := Group [] (map (fun kf => (fst kf, fnode (snd kf))) fs).
Definition nom_text (nom : list string) : string := match nom with [] => pad16 "" | _ => String.concat "" (map pad16 nom) end.
Definition add_item (name : string) (nom : list string) (x : sitem) (fs : dict (string * list sitem)) : dict (string * list sitem) :=
  match dget name fs with
  | None => dset name (nom_text nom, [x]) fs
  | Some (t, l) => dset name (t, l ++ [x]) fs
  end.
Lemma dget_map_snd {A B} (f : A -> B) k d : dget k (map (fun kv => (fst kv, f (snd kv))) d) = option_map f (dget k d).
Proof. induction d as [|[k' v] d IH]; [reflexivity|]. cbn. destruct (String.eqb k k'); auto. Qed.
Lemma dset_map_snd {A B} (f : A -> B) k v d : dset k (f v) (map (fun kv => (fst kv, f (snd kv))) d) = map (fun kv => (fst kv, f (snd kv))) (dset k v d).
Proof. induction d as [|[k' v'] d IH]; [reflexivity|]. cbn. destruct (String.eqb k k'); cbn; [reflexivity|]. now rewrite IH. Qed.
Lemma create_med_step x g a : plain (fst (node x)) -> ~ In (fst (node x)) (dkeys (map node g)) ->
  h5_create (fst (node x)) (snd (node x)) (Group a (map node g)) = Ok (Group a (map node (g ++ [x]))).
Proof. intros P N. rewrite create_new by auto. rewrite map_app. cbn [map]. now destruct (node x). Qed.
Lemma write_data_ok nom name s t v x fs : plain name -> s <> ELGA -> node x = (supp_name s t, med_profile_group s v) -> plain (supp_name s t) ->
  (forall n l, dget name fs = Some (n, l) -> ~ In (supp_name s t) (map fst (map node l))) ->
  write_data nom name s t v (tree fs) = Ok (tree (add_item name nom x fs)).
Proof.
  intros Pn Hs Hx Ps Hn. unfold write_data.
  assert (W : edit (split_char "/" name) (fun o => med_add s t v match o with Some x => x | None => med_new_field nom end) (Some (tree fs)) = Ok (tree (add_item name nom x fs))).
  2: { destruct s; congruence. }
  rewrite split_plain by auto. unfold tree at 1. cbn [edit]. rewrite dget_map_snd. unfold add_item. destruct (dget name fs) as [[n l]|] eqn:E; cbn [option_map].
  - unfold fnode at 1. cbn [fst snd med_add]. unfold sorted_items. cbn [fold_right insert_item rev app nth_error of_option bind fst snd].
    pose proof (create_med_step x l []) as C. rewrite Hx in C. cbn [fst snd] in C. rewrite C; [|auto|apply (Hn n l eq_refl)]. cbn [bind dset]. rewrite String.eqb_refl.
    unfold tree. rewrite <- dset_map_snd. reflexivity.
  - unfold med_new_field. cbn [med_add]. unfold sorted_items. cbn [fold_right insert_item rev app nth_error of_option bind fst snd].
    pose proof (create_med_step x [] []) as C. rewrite Hx in C. cbn [fst snd map] in C. rewrite C; [|auto|intros []]. cbn [bind dset]. rewrite String.eqb_refl.
    unfold tree. rewrite <- dset_map_snd. reflexivity.
Qed.
Definition enough (names : list (list string)) (n : nat) : Prop := names = [] \/ n <= length names.
Lemma nom_at_ok names idx n : enough names n -> idx < n -> nom_at names idx = Ok (nth idx names []).
Proof.
  intros [-> | H] Hi; [now destruct idx|]. unfold nom_at. destruct names as [|x names]; [cbn in H; lia|].
  rewrite (nth_error_nth' (x :: names) []) by lia. reflexivity.
Qed.
Definition noms (names : list (list string)) (idx : nat) (keys : list string) : dict (list string) :=
  combine keys (map (fun i => nth i names []) (seq idx (length keys))).
Definition nomk names idx keys k : list string := match dget k (noms names idx keys) with Some n => n | None => [] end.
Lemma nomk_here names idx k keys : nomk names idx (k :: keys) k = nth idx names [].
Proof. unfold nomk, noms. cbn [length seq map combine dget]. now rewrite String.eqb_refl. Qed.
Lemma nomk_next names idx k k' keys : k <> k' -> nomk names idx (k' :: keys) k = nomk names (S idx) keys k.
Proof. intros H. unfold nomk, noms. cbn [length seq map combine dget]. destruct (String.eqb_spec k k'); [contradiction|reflexivity]. Qed.
Definition untagged (tag : string) (l : list string) : list string := filter (fun n => negb (String.eqb n tag)) l.
Lemma untagged_skip tag l : untagged tag (tag :: l) = untagged tag l.
Proof. unfold untagged. cbn [filter]. now rewrite String.eqb_refl. Qed.
Lemma untagged_cons tag k l : k <> tag -> untagged tag (k :: l) = k :: untagged tag l.
Proof. intros H. unfold untagged. cbn [filter]. destruct (String.eqb_spec k tag); [contradiction|reflexivity]. Qed.
Lemma add_new name nom x fs : dget name fs = None -> add_item name nom x fs = dset name (nom_text nom, [x]) fs.
Proof. intros H. unfold add_item. now rewrite H. Qed.
Lemma write_points_ok names total : enough names total -> forall pd idx fs, NoDup (dkeys pd) -> Forall plain (dkeys pd) ->
  (forall k, In k (dkeys pd) -> dget k fs = None) -> idx + length (untagged "point_tags" (dkeys pd)) <= total ->
  exists fs', write_point_fields names pd idx (tree fs) = Ok (tree fs', idx + length (untagged "point_tags" (dkeys pd))) /\ (NoDup (dkeys fs) -> NoDup (dkeys fs')) /\
  forall k, dget k fs' = match dget k pd with
    | Some v => if String.eqb k "point_tags" then dget k fs else Some (nom_text (nomk names idx (untagged "point_tags" (dkeys pd)) k), [SP v])
    | None => dget k fs end.
Proof.
  intros He pd. induction pd as [|[name v] pd IH]; intros idx fs N P D L.
  - exists fs. cbn. rewrite Nat.add_0_r. auto.
  - cbn in N, P. inversion N as [|? ? N1 N2]; subst. inversion P as [|? ? P1 P2]; subst. fold (dkeys pd) in *. cbn [write_point_fields dkeys map fst].
    fold (dkeys pd). change (dkeys ((name, v) :: pd)) with (name :: dkeys pd) in L.
    destruct (String.eqb_spec name "point_tags") as [->|Hn].
    + rewrite untagged_skip in *. destruct (IH idx fs N2 P2) as (fs' & E & Nf & G); [intros k Hk; apply D; now right|exact L|].
      exists fs'. split; [exact E|]. split; [exact Nf|]. intros k. rewrite G. cbn [dget].
      destruct (String.eqb_spec k "point_tags") as [->|]; [|reflexivity]. now rewrite (proj2 (dget_None "point_tags" pd) N1).
    + rewrite untagged_cons in * by exact Hn. cbn [length] in *. rewrite (nom_at_ok names idx total) by (auto; lia). cbn [bind].
      assert (Hd : dget name fs = None) by (apply D; now left).
      rewrite (write_data_ok _ _ _ _ _ (SP v)) by (auto; try discriminate; try reflexivity; intros ? ? E; congruence). cbn [bind].
      rewrite add_new by exact Hd.
      destruct (IH (S idx) (dset name (nom_text (nth idx names []), [SP v]) fs) N2 P2) as (fs' & E & Nf & G).
      * intros k Hk. rewrite dget_dset_other by congruence. apply D. now right.
      * lia.
      * exists fs'. split; [rewrite E; do 2 f_equal; lia|]. split; [intros Nd; apply Nf; now apply NoDup_dset|].
        intros k. rewrite G. cbn [dget]. destruct (String.eqb_spec k name) as [->|Hk].
        -- rewrite (proj2 (dget_None name pd) N1). rewrite dget_dset_same. destruct (String.eqb_spec name "point_tags"); [contradiction|]. now rewrite nomk_here.
        -- rewrite dget_dset_other by congruence. now rewrite nomk_next by exact Hk.
Qed.
Definition sup_of (v : hval F) : support := if Nat.leb (length (hv_shape v)) 2 then ELEM else ELNO.
Definition item (b : block) (v : hval F) : sitem := SC (sup_of v) (btype b) v.
Definition items (bs : list block) (data : list (hval F)) : list sitem := map (fun bv => item (fst bv) (snd bv)) (combine bs data).
Lemma support_of_ok b v : cellwise b v -> support_of (btype b) v = Ok (sup_of v).
Proof.
  intros H. unfold support_of, sup_of. destruct (Nat.leb_spec (length (hv_shape v)) 2) as [|L]; [reflexivity|].
  destruct H as [|(n & g & c & E & G)]; [lia|]. rewrite G, E. cbn [of_option bind nth]. now rewrite Nat.eqb_refl.
Qed.
Lemma node_names s t v s' t' v' : In t (dkeys meshio_to_med_type) -> In t' (dkeys meshio_to_med_type) ->
  (s = ELEM \/ s = ELNO) -> (s' = ELEM \/ s' = ELNO) -> fst (node (SC s t v)) = fst (node (SC s' t' v')) -> t = t'.
Proof.
  intros H H' Hs Hs' E. apply mname_inj; auto. cbn [node fst] in E. destruct Hs as [-> | ->], Hs' as [-> | ->]; cbn in E; congruence.
Qed.
Definition plain_item (x : sitem) : Prop := match x with SP _ => True | SC s t _ => (s = ELEM \/ s = ELNO) /\ In t (dkeys meshio_to_med_type) end.
Definition types_in (l : list sitem) : list string := flat_map (fun x => match x with SC _ t _ => [t] | _ => [] end) l.
Lemma sup_of_or v : sup_of v = ELEM \/ sup_of v = ELNO.
Proof. unfold sup_of. destruct (Nat.leb _ _); auto. Qed.
Lemma write_cell_ok nom n name : nom = Ok n -> plain name -> forall bs data fs, Forall2 (fun v b => cellwise b v) data bs -> NoDup (map btype bs) ->
  Forall (fun b => In (btype b) (dkeys meshio_to_med_type)) bs ->
  (forall t l, dget name fs = Some (t, l) -> Forall plain_item l /\ forall u, In u (types_in l) -> ~ In u (map btype bs)) ->
  write_cell_field nom name bs data (tree fs) = Ok (tree (fold_left (fun fs x => add_item name n x fs) (items bs data) fs)).
Proof.
  intros En Pn bs. induction bs as [|b bs IH]; intros data fs H N T D; inversion H as [|v ? data' ? Hv Hd]; subst; [reflexivity|].
  cbn [map] in N. inversion N as [|? ? N1 N2]; subst. inversion T as [|? ? T1 T2]; subst. cbn [write_cell_field]. destruct (mname_ok _ T1) as (E1 & _ & E3 & _). rewrite E1. cbn [of_option bind].
  rewrite support_of_ok by auto. cbn [bind]. rewrite (write_data_ok _ _ _ _ _ (item b v)).
  - cbn [bind]. rewrite IH; auto.
    + intros t l E. unfold add_item in E. destruct (dget name fs) as [[t0 l0]|] eqn:E0; rewrite dget_dset_same in E; injection E as <- <-.
      * destruct (D t0 l0 eq_refl) as (D1 & D2). split.
        -- apply Forall_app. split; [exact D1|]. constructor; [|constructor]. split; [apply sup_of_or|exact T1].
        -- intros u Hu. unfold types_in in Hu. rewrite flat_map_app in Hu. apply in_app_iff in Hu. destruct Hu as [Hu|[<-|[]]]; [|exact N1]. intros Hb. apply (D2 u Hu). now right.
      * split; [constructor; [|constructor]; split; [apply sup_of_or|exact T1]|]. intros u [<-|[]]. exact N1.
  - exact Pn.
  - destruct (sup_of_or v) as [-> | ->]; discriminate.
  - reflexivity.
  - destruct (sup_of_or v) as [-> | ->]; cbn; unfold plain in *; cbn; exact E3.
  - intros t l E Hin. destruct (D t l E) as (D1 & D2). apply in_map_iff in Hin. destruct Hin as (kv & Ek & Hin). apply in_map_iff in Hin. destruct Hin as (x & <- & Hx).
    rewrite Forall_forall in D1. specialize (D1 x Hx). destruct x as [w|s u w].
    + cbn in Ek. destruct (sup_of_or v) as [E2|E2]; rewrite E2 in Ek; cbn in Ek; [discriminate|]. destruct (mname (btype b)); discriminate.
    + destruct D1 as (S1 & S2). assert (Et : u = btype b).
      { eapply (node_names s u w (sup_of v) (btype b) v); auto; apply sup_of_or. }
      apply (D2 u).
      * unfold types_in. apply in_flat_map. exists (SC s u w). split; [exact Hx|now left].
      * now left.
Qed.
Lemma add_items name n l : forall fs, (NoDup (dkeys fs) -> NoDup (dkeys (fold_left (fun fs x => add_item name n x fs) l fs))) /\
  forall k, dget k (fold_left (fun fs x => add_item name n x fs) l fs) =
    if String.eqb k name then match l with [] => dget k fs | _ => Some (match dget name fs with Some (t, l0) => (t, l0 ++ l) | None => (nom_text n, l) end) end else dget k fs.
Proof.
  induction l as [|x l IH]; intros fs; cbn [fold_left]; [split; [auto|intros k; now destruct (String.eqb k name)]|].
  destruct (IH (add_item name n x fs)) as (I1 & I2). split.
  - intros N. apply I1. unfold add_item. destruct (dget name fs) as [[t l0]|]; now apply NoDup_dset.
  - intros k. rewrite I2. unfold add_item. destruct (String.eqb_spec k name) as [->|Hk].
    + destruct (dget name fs) as [[t l0]|]; rewrite dget_dset_same; destruct l; try reflexivity. now rewrite <- app_assoc.
    + destruct (dget name fs) as [[t l0]|]; now rewrite dget_dset_other by congruence.
Qed.
Lemma write_cells_ok names total bs : enough names total -> bs <> [] -> NoDup (map btype bs) -> Forall (fun b => In (btype b) (dkeys meshio_to_med_type)) bs ->
  forall cd idx fs, NoDup (dkeys cd) -> Forall plain (dkeys cd) ->
  Forall (fun kv => fst kv = "cell_tags" \/ Forall2 (fun v b => cellwise b v) (snd kv) bs) cd ->
  (forall k t l, In k (dkeys cd) -> dget k fs = Some (t, l) -> Forall plain_item l /\ types_in l = []) -> idx + length (untagged "cell_tags" (dkeys cd)) <= total ->
  exists fs', write_cell_fields names bs cd idx (tree fs) = Ok (tree fs') /\ (NoDup (dkeys fs) -> NoDup (dkeys fs')) /\
  forall k, dget k fs' = match dget k cd with
    | Some data => if String.eqb k "cell_tags" then dget k fs else
        Some (match dget k fs with Some (t, l) => (t, l ++ items bs data) | None => (nom_text (nomk names idx (untagged "cell_tags" (dkeys cd)) k), items bs data) end)
    | None => dget k fs end.
Proof.
  intros He Hb Nb Tb cd. induction cd as [|[name data] cd IH]; intros idx fs N P W D L.
  - exists fs. cbn. auto.
  - cbn in N, P. inversion N as [|? ? N1 N2]; subst. inversion P as [|? ? P1 P2]; subst. inversion W as [|? ? W1 W2]; subst. fold (dkeys cd) in *. cbn [write_cell_fields dkeys map fst].
    fold (dkeys cd). cbn [fst snd] in W1. change (dkeys ((name, data) :: cd)) with (name :: dkeys cd) in L.
    destruct (String.eqb_spec name "cell_tags") as [->|Hn].
    + rewrite untagged_skip in *. destruct (IH idx fs N2 P2 W2) as (fs' & E & Nf & G); [intros k t l Hk; apply D; now right|exact L|].
      exists fs'. split; [exact E|]. split; [exact Nf|]. intros k. rewrite G. cbn [dget].
      destruct (String.eqb_spec k "cell_tags") as [->|]; [|reflexivity]. now rewrite (proj2 (dget_None "cell_tags" cd) N1).
    + rewrite untagged_cons in * by exact Hn. cbn [length] in *. destruct W1 as [W1|W1]; [contradiction|].
      assert (Hx : forall t l, dget name fs = Some (t, l) -> Forall plain_item l /\ forall u, In u (types_in l) -> ~ In u (map btype bs)).
      { intros t l E. destruct (D name t l (or_introl eq_refl) E) as (D1 & D2). split; [exact D1|]. rewrite D2. intros u []. }
      rewrite (write_cell_ok _ (nth idx names []) name); [|apply (nom_at_ok names idx total); auto; lia|assumption..].
      cbn [bind]. set (fs1 := fold_left (fun fs x => add_item name (nth idx names []) x fs) (items bs data) fs).
      destruct (add_items name (nth idx names []) (items bs data) fs) as (A1 & A2). fold fs1 in A1, A2.
      destruct (IH (S idx) fs1 N2 P2 W2) as (fs' & E & Nf & G).
      * intros k t l Hk. rewrite A2. destruct (String.eqb_spec k name) as [->|]; [contradiction|]. apply D. now right.
      * lia.
      * exists fs'. split; [exact E|]. split; [auto|]. intros k. rewrite G. cbn [dget]. destruct (String.eqb_spec k name) as [->|Hk].
        -- rewrite (proj2 (dget_None name cd) N1). rewrite A2, String.eqb_refl. destruct (String.eqb_spec name "cell_tags"); [contradiction|].
           rewrite nomk_here.
           assert (Hi : items bs data <> []).
           { unfold items. destruct bs as [|b bs']; [contradiction|]. inversion W1; subst. discriminate. }
           destruct (items bs data); [contradiction|]. reflexivity.
        -- rewrite A2. destruct (String.eqb_spec k name); [contradiction|]. now rewrite nomk_next by exact Hk.
Qed.
(** ** Families *)
Definition nulls (k : nat) : string := string_of_list_ascii (repeat Ascii.zero k).
Lemma chars_codes s k : chars (codes s ++ repeat 0%Z k) = (s ++ nulls k)%string.
Proof.
  induction s as [|a s IH].
  - cbn [codes app append]. unfold nulls. induction k as [|k IHk]; [reflexivity|]. cbn [repeat chars fold_right string_of_list_ascii] in *. f_equal. exact IHk.
  - cbn [codes app append chars fold_right]. f_equal; [|exact IH]. rewrite N2Z.id. apply ascii_N_embedding.
Qed.
Lemma lstrip_len s : String.length (lstrip s) <= String.length s.
Proof. induction s as [|a s IH]; cbn; [lia|]. destruct (is_space a); cbn; lia. Qed.
Lemma nulls_word k : word (nulls (S k)) = true.
Proof. unfold nulls. cbn. induction k as [|k IH]; [reflexivity|]. cbn. exact IH. Qed.
Lemma nulls_snoc k : nulls (S k) = (nulls k ++ String Ascii.zero "")%string.
Proof. unfold nulls. induction k as [|k IH]; [reflexivity|]. cbn [repeat string_of_list_ascii append] in *. f_equal. exact IH. Qed.
Lemma set_name_back s k : set_name s -> rstrip_null (strip (s ++ nulls k)%string) = s.
Proof.
  intros (_ & _ & H1 & H2 & H3 & _). assert (L : lstrip (s ++ nulls k)%string = (s ++ nulls k)%string).
  { destruct s as [|a s]; [destruct k; reflexivity|]. cbn [append lstrip] in *. destruct (is_space a); [|reflexivity].
    exfalso. assert (X := lstrip_len s). rewrite H1 in X. cbn in X. lia. }
  unfold strip. rewrite L. assert (R : rstrip (s ++ nulls k)%string = (s ++ nulls k)%string).
  { destruct k; [cbn; now rewrite str_app_nil_r|]. apply rstrip_app_word, nulls_word. }
  rewrite R. rewrite <- H3 at 2. clear. induction k as [|k IH]; [cbn; now rewrite str_app_nil_r|]. rewrite nulls_snoc, <- str_app_assoc.
  unfold rstrip_null in *. rewrite AbaqusLines.rstrip_char_drop. exact IH.
Qed.
Definition row80 (s : string) : list Z := codes s ++ repeat 0%Z (80 - String.length s).
Lemma codes_length s : length (codes s) = String.length s.
Proof. induction s; cbn; auto. Qed.
Lemma row80_length s : set_name s -> length (row80 s) = 80.
Proof. intros (H & _). unfold row80. rewrite app_length, repeat_length, codes_length. lia. Qed.
Definition famnode (idn : Z * list string) : string * h5 F :=
  (family_name (fst idn) (snd idn), Group [("NUM", AInt (fst idn))]
     [("GRO", Group [("NBR", nat_attr (length (snd idn)))] [("NOM", Dataset [] (HInts (Nda [length (snd idn); 80] (concat (map row80 (snd idn))))))])]).
Lemma med_family_ok idn : Forall set_name (snd idn) -> med_family idn = Ok (famnode idn).
Proof.
  intros H. unfold med_family. assert (E : mapM name_80 (snd idn) = Ok (map row80 (snd idn))).
  { apply mapM_Forall2. induction H as [|s l (Hs & _) _ IH]; constructor; auto. unfold name_80. destruct (Nat.leb_spec (String.length s) 80); [reflexivity|lia]. }
  now rewrite E.
Qed.
Lemma mapM_seq {A} (l : list A) : mapM (fun i => of_option IndexError (nth_error l i)) (seq 0 (length l)) = Ok l.
Proof.
  apply mapM_Forall2. assert (G : forall pre, Forall2 (fun i y => of_option IndexError (nth_error (pre ++ l) i) = Ok y) (seq (length pre) (length l)) l).
  { induction l as [|x l IH]; intros pre; [constructor|]. cbn [length seq]. constructor.
    - rewrite nth_error_app2 by lia. now rewrite Nat.sub_diag.
    - specialize (IH (pre ++ [x])). rewrite app_length in IH. cbn [length] in IH. rewrite Nat.add_1_r in IH. rewrite <- app_assoc in IH. exact IH. }
  exact (G []).
Qed.
Lemma read_family_ok idn : Forall set_name (snd idn) -> read_family (snd (famnode idn)) = Ok (idn : Z * list string).
Proof.
  intros H. unfold read_family, famnode. cbn [snd]. rewrite attr_int_group. cbn [bind]. rewrite get_here. cbn [bind]. rewrite attr_nat_group. cbn [bind]. rewrite get_here. cbn [bind h5_value int_rows].
  unfold to_rows. cbn [nd_shape nd_flat]. assert (R : Forall (fun r => length r = 80) (map row80 (snd idn))).
  { apply Forall_map. eapply Forall_impl; [|exact H]. apply row80_length. }
  pose proof (rows_of_concat (map row80 (snd idn)) 80 R) as E. rewrite map_length in E.
  cbn [bind]. rewrite E, Nat2Z.id. pose proof (mapM_seq (map row80 (snd idn))) as M. rewrite map_length in M. rewrite M. cbn [bind]. rewrite map_map.
  destruct idn as [id names]. cbn [fst snd] in *. do 2 f_equal. rewrite <- (map_id names) at 2. apply map_ext_in. intros s Hs. rewrite Forall_forall in H.
  unfold row80. rewrite chars_codes. now apply set_name_back, H.
Qed.
Lemma family_prefix id1 id2 a b : family_name id1 a = family_name id2 b -> id1 = id2.
Proof.
  unfold family_name. intros E. injection E as E. apply str_of_Z_inj.
  assert (G : forall s t x y, char_in "_" s = false -> char_in "_" t = false -> (s ++ String "_" x = t ++ String "_" y)%string -> s = t).
  { clear. induction s as [|c s IH]; intros [|d t] x y Hs Ht H; cbn in *; try reflexivity.
    - injection H as <- _. discriminate Ht.
    - injection H as -> _. discriminate Hs.
    - injection H as -> H. apply orb_false_iff in Hs, Ht. f_equal. eapply IH; [tauto|tauto|exact H]. }
  eapply G; [| |exact E]; apply char_in_str_of_Z; (reflexivity || discriminate).
Qed.
Lemma char_in_join_ c l : c <> "_"%char -> Forall (fun s => char_in c s = false) l -> char_in c (join "_" l) = false.
Proof.
  intros N. induction 1 as [|x l Hx Hl IH]; [reflexivity|]. destruct l as [|y l]; [exact Hx|].
  rewrite join_cons, !Mdpa.char_in_app, Hx, IH. cbn [char_in orb]. rewrite !orb_false_r. now apply Ascii.eqb_neq.
Qed.
Lemma famnode_plain idn : Forall set_name (snd idn) -> plain (fst (famnode idn)).
Proof.
  intros H. unfold plain, famnode, family_name. cbn [fst]. rewrite !Mdpa.char_in_app. rewrite char_in_str_of_Z by (reflexivity || discriminate).
  rewrite char_in_join_; [reflexivity|discriminate|]. eapply Forall_impl; [|exact H]. intros s Hs. apply Hs.
Qed.
Definition fpart (which : string) (tags : option (zdict (list string))) : list (string * h5 F) :=
  match tags with None | Some [] => [] | Some l => [(which, Group [] (map famnode l))] end.
Lemma families_written which tags its : families_ok tags -> plain which -> ~ In which (dkeys its) ->
  med_families which tags (Group [] its) = Ok (Group [] (its ++ fpart which tags)).
Proof.
  intros H Pw Hw. unfold med_families, fpart. destruct tags as [[|x l]|]; try (now rewrite app_nil_r). destruct H as (N & G).
  assert (E : mapM med_family (x :: l) = Ok (map famnode (x :: l))).
  { apply mapM_Forall2. clear N. revert G. generalize (x :: l). intros k G. induction G; constructor; auto using med_family_ok. }
  rewrite E. cbn [bind]. rewrite create_all.
  - cbn [bind app]. now rewrite create_new.
  - clear N E. revert G. generalize (x :: l). intros k G. unfold dkeys. rewrite map_map. apply Forall_map. eapply Forall_impl; [|exact G]. intros idn. apply famnode_plain.
  - clear G E. revert N. generalize (x :: l). intros k N. unfold dkeys. rewrite map_map. induction k as [|y k IH]; [constructor|]. inversion N; subst. cbn [map]. constructor; auto.
    intros Hin. apply in_map_iff in Hin. destruct Hin as (z & Ez & Hz). apply H1. apply family_prefix in Ez. rewrite <- Ez. now apply in_map.
  - intros n _ [].
Qed.
Lemma fold_zset {V} (l : list (Z * V)) : forall d id, NoDup (map fst l) -> (forall k, In k (map fst l) -> zget k d = None) ->
  zget id (fold_left (fun d kv => zset (fst kv) (snd kv) d) l d) = match zget id d with Some v => Some v | None => zget id l end.
Proof.
  induction l as [|[k v] l IH]; intros d id N D; cbn [fold_left fst snd].
  - now destruct (zget id d).
  - cbn [map fst] in N, D. inversion N as [|? ? N1 N2]; subst. rewrite IH; auto.
    + rewrite zget_zset. cbn [zget]. destruct (Z.eqb_spec id k) as [->|]; [|reflexivity]. now rewrite (D k (or_introl eq_refl)).
    + intros k' Hk. rewrite zget_zset. destruct (Z.eqb_spec k' k) as [->|]; [contradiction|]. apply D. now right.
Qed.
Lemma zget_perm {V} (a b : list (Z * V)) id : Permutation a b -> NoDup (map fst a) -> zget id a = zget id b.
Proof.
  intros P N. assert (Nb : NoDup (map fst b)) by (eapply Permutation_NoDup; [apply Permutation_map, P|exact N]).
  destruct (in_dec Z.eq_dec id (map fst a)) as [Hin|Hin].
  - apply in_map_iff in Hin. destruct Hin as ([k v] & <- & Hin). cbn [fst]. rewrite (Abaqus.zget_In a k v) by auto. symmetry. apply Abaqus.zget_In; auto. eapply Permutation_in; eauto.
  - rewrite Abaqus.zget_None by auto. symmetry. apply Abaqus.zget_None. intros Hb. apply Hin. eapply Permutation_in; [apply Permutation_map, Permutation_sym, P|exact Hb].
Qed.
Lemma families_read l : NoDup (map fst l) -> Forall (fun kv => Forall set_name (snd kv)) l ->
  exists r, read_families (Group [] (map famnode l)) = Ok r /\ forall id, zget id r = zget id l.
Proof.
  intros N G. unfold read_families. cbn [h5_items bind]. destruct (Permutation_map_inv _ _ (sorted_perm (map famnode l))) as (l' & E & P). rewrite E.
  assert (M : mapM (fun kv => read_family (snd kv)) (map famnode l') = Ok l').
  { apply mapM_Forall2. assert (G' : Forall (fun kv => Forall set_name (snd kv)) l') by (eapply Permutation_Forall; eauto).
    clear -G'. induction G' as [|x l' H _ IH]; constructor; auto. now apply read_family_ok. }
  rewrite M. cbn [bind]. eexists. split; [reflexivity|]. intros id. rewrite fold_zset.
  - cbn [zget]. symmetry. now apply zget_perm.
  - eapply Permutation_NoDup; [apply Permutation_map, P|exact N].
  - reflexivity.
Qed.
(** ** Blocks *)
Lemma column_map {A B} (f : A -> B) j (m : list (list A)) : column j (map (map f) m) = map f (column j m).
Proof.
  unfold column. induction m as [|r m IH]; [reflexivity|]. cbn [map flat_map]. rewrite map_app, IH. f_equal. rewrite nth_error_map. now destruct (nth_error r j).
Qed.
Lemma to_f_map {A B} (f : A -> B) s : forall l, to_f s (map f l) = map f (to_f s l).
Proof.
  induction s as [|n s IH]; intros l; [reflexivity|]. cbn [to_f]. rewrite concat_map. f_equal. unfold transposed. rewrite map_map. apply map_ext. intros j.
  rewrite <- column_map. f_equal. rewrite map_map. unfold rows_of. rewrite !map_map. apply map_ext. intros i. rewrite <- map_slice. apply IH.
Qed.
Definition shifted (b : block) : nda Z := of_rows (map (map (fun i => (i + 1)%Z)) (bdata b)).
Lemma nod_shifted b : (let a := flatten_f (of_rows (bdata b)) in Nda (nd_shape a) (map (fun i => (i + 1)%Z) (nd_flat a))) = flatten_f (shifted b).
Proof.
  unfold flatten_f, shifted, of_rows. cbn [nd_shape nd_flat]. rewrite <- concat_map, !map_length, to_f_map. f_equal. do 2 f_equal.
  destruct (bdata b) as [|r rs]; [reflexivity|]. cbn [map length]. now rewrite map_length.
Qed.
Definition tag (cd : dict (list (hval F))) (k : nat) : option (hval F) := match dget "cell_tags" cd with Some l => nth_error l k | None => None end.
Definition bnode (cd : dict (list (hval F))) (kb : nat * block) : string * h5 F :=
  (mname (btype (snd kb)), Group [("PFL", AStr med_profile)]
     (("NOD", Dataset [("NBR", nat_attr (length (bdata (snd kb))))] (HInts (flatten_f (shifted (snd kb)))))
      :: match tag cd (fst kb) with Some v => [("FAM", Dataset [("NBR", nat_attr (length (bdata (snd kb))))] v)] | None => [] end)).
Lemma med_block_ok cd kb : In (btype (snd kb)) (dkeys meshio_to_med_type) ->
  (forall l, dget "cell_tags" cd = Some l -> fst kb < length l) -> med_block cd kb = Ok (bnode cd kb).
Proof.
  destruct kb as [k b]. cbn [fst snd]. intros H L. unfold med_block. destruct (mname_ok _ H) as (E & _). rewrite E. cbn [of_option bind]. rewrite nod_shifted. unfold bnode, tag. cbn [fst snd].
  destruct (dget "cell_tags" cd) as [l|]; [|reflexivity]. destruct (nth_error l k) as [v|] eqn:Ek; [reflexivity|]. apply nth_error_None in Ek. specialize (L l eq_refl). lia.
Qed.
Lemma shift_rows (rows : list cell) : map (map (fun i => (i - 1)%Z)) (map (map (fun i => (i + 1)%Z)) rows) = rows.
Proof. apply backs. Qed.
Lemma read_block_ok cd kb : In (btype (snd kb)) (dkeys meshio_to_med_type) -> bdata (snd kb) <> [] -> (exists w, Forall (fun c => length c = w) (bdata (snd kb))) ->
  read_med_block (bnode cd kb) = Ok (btype (snd kb), bdata (snd kb), tag cd (fst kb)).
Proof.
  destruct kb as [k b]. cbn [fst snd]. intros H Hne (w & Hw). unfold read_med_block, bnode. cbn [fst snd]. destruct (mname_ok _ H) as (_ & E & _). rewrite E. cbn [of_option bind].
  rewrite get_here. cbn [bind]. assert (A : forall x z (v : hval F), attr_int (Dataset [(x, nat_attr z)] v) x = Ok (Z.of_nat z)) by (intros; apply attr_int_here). rewrite A. cbn [bind h5_value].
  assert (W : Forall (fun r => length r = w) (map (map (fun i => (i + 1)%Z)) (bdata b))).
  { apply Forall_map. eapply Forall_impl; [|exact Hw]. intros c Hc. now rewrite map_length. }
  assert (R : reshape_f_rest [Z.to_nat (Z.of_nat (length (bdata b)))] (flatten_f (shifted b)) = Ok (shifted b)).
  { rewrite Nat2Z.id. apply (reshape_rest_flatten (shifted b) [length (bdata b)] (match map (map (fun i => (i + 1)%Z)) (bdata b) with r :: _ => length r | [] => 0 end)).
    - unfold shifted. now apply (of_rows_ok _ w).
    - unfold shifted, of_rows. cbn [nd_shape app]. now rewrite map_length.
    - unfold size. cbn. destruct (bdata b); [contradiction|]. cbn. lia. }
  rewrite R. cbn [bind]. unfold shifted. rewrite (to_of_rows _ w W). cbn [bind]. rewrite shift_rows.
  destruct (tag cd k) as [v|]; reflexivity.
Qed.
Lemma position_nth types : forall j t, NoDup types -> nth_error types j = Some t -> position t types = j.
Proof.
  unfold position, where_. assert (G : forall types i j t, NoDup types -> nth_error types j = Some t -> hd 0 (where_from (String.eqb t) i types) = i + j).
  { clear. induction types as [|u types IH]; intros i j t N E; [destruct j; discriminate|]. inversion N; subst. cbn [where_from]. destruct (String.eqb_spec t u) as [->|Hu].
    - destruct j; [cbn; lia|]. cbn in E. apply nth_error_In in E. contradiction.
    - destruct j; cbn in E; [congruence|]. rewrite (IH (S i) j t) by auto. lia. }
  intros j t N E. now rewrite (G types 0 j t N E).
Qed.
Definition dv : hval F := HInts (Nda [] []).
Lemma cells_at_items types bs data : length data = length bs ->
  cells_at types (items bs data) = map (fun kb => (position (btype (snd kb)) types, squeezed (nth (fst kb) data dv))) (enumerate bs).
Proof.
  intros L. unfold items, enumerate. assert (G : forall pre, cells_at types (map (fun bv => item (fst bv) (snd bv)) (combine bs data)) =
    map (fun kb => (position (btype (snd kb)) types, squeezed (nth (fst kb) (pre ++ data) dv))) (combine (seq (length pre) (length bs)) bs)).
  { revert data L. induction bs as [|b bs IH]; intros [|v data] L pre; try discriminate; [reflexivity|]. cbn [combine map length seq cells_at flat_map item fst snd app].
    fold (cells_at types (map (fun bv => item (fst bv) (snd bv)) (combine bs data))). injection L as L. f_equal.
    - rewrite app_nth2 by lia. now rewrite Nat.sub_diag.
    - rewrite (IH data L (pre ++ [v])). rewrite app_length, Nat.add_1_r, <- app_assoc. reflexivity. }
  exact (G []).
Qed.
Lemma number_map {A B} (p : A -> nat) (g : A -> B) l : forall i, (forall j x, nth_error l j = Some x -> p x = i + j) -> map (fun x => (p x, g x)) l = combine (seq i (length l)) (map g l).
Proof.
  induction l as [|x l IH]; intros i H; [reflexivity|]. cbn [map length seq combine]. f_equal.
  - rewrite (H 0 x eq_refl). now rewrite Nat.add_0_r.
  - apply IH. intros j y E. rewrite (H (S j) y E). lia.
Qed.
Lemma fills_sigma types sigma bs data : Permutation (enumerate bs) sigma -> types = map (fun kb => btype (snd kb)) sigma -> NoDup types -> length data = length bs ->
  fills (cells_at types (items bs data)) (repeat None (length types)) = map (fun kb => Some (squeezed (nth (fst kb) data dv))) sigma /\
  NoDup (map fst (cells_at types (items bs data))).
Proof.
  intros P E N L. rewrite cells_at_items by exact L.
  assert (Q : Permutation (map (fun kb => (position (btype (snd kb)) types, squeezed (nth (fst kb) data dv))) (enumerate bs)) (enumerate (map (fun kb => squeezed (nth (fst kb) data dv)) sigma))).
  { rewrite (Permutation_map _ P). unfold enumerate at 1. rewrite map_length. assert (X : map (fun kb => (position (btype (snd kb)) types, squeezed (nth (fst kb) data dv))) sigma =
      combine (seq 0 (length sigma)) (map (fun kb => squeezed (nth (fst kb) data dv)) sigma)); [|now rewrite X].
    apply number_map. intros j kb Ej. apply position_nth; [exact N|]. rewrite E, nth_error_map. cbn [Nat.add]. now rewrite Ej. }
  assert (Nd : NoDup (map fst (map (fun kb => (position (btype (snd kb)) types, squeezed (nth (fst kb) data dv))) (enumerate bs)))).
  { eapply Permutation_NoDup; [apply Permutation_map, Permutation_sym, Q|apply enumerate_nodup]. }
  split; [|exact Nd]. rewrite (fills_perm _ _ Q Nd). rewrite <- (map_map (fun kb => squeezed (nth (fst kb) data dv)) Some). rewrite <- fills_enumerate. f_equal. f_equal. rewrite E, !map_length. reflexivity.
Qed.
(** ** The file *)
Definition names_of (mm : med_mesh F) : list (list string) := match mm_nom mm with Some l => l | None => [] end.
Lemma noms_app names a : forall idx b, noms names idx (a ++ b) = noms names idx a ++ noms names (idx + length a) b.
Proof.
  induction a as [|k a IH]; intros idx b; [cbn; now rewrite Nat.add_0_r|]. unfold noms in *. cbn [app length seq map combine]. rewrite IH. cbn [app]. do 5 f_equal. lia.
Qed.
Lemma noms_combine names keys : forall pre, length keys <= length names -> noms (pre ++ names) (length pre) keys = combine keys names.
Proof.
  revert keys. induction names as [|n names IH]; intros [|k keys] pre L; cbn in L; try lia; try reflexivity.
  unfold noms in *. cbn [length seq map combine]. rewrite app_nth2 by lia. rewrite Nat.sub_diag. cbn [nth]. f_equal.
  specialize (IH keys (pre ++ [n])). rewrite app_length, Nat.add_1_r, <- app_assoc in IH. apply IH. lia.
Qed.
Lemma noms_nil keys : forall idx k, nomk [] idx keys k = [].
Proof.
  induction keys as [|x keys IH]; intros idx k; [reflexivity|]. destruct (String.eqb_spec k x) as [->|H]; [rewrite nomk_here; now destruct idx|]. rewrite nomk_next by exact H. apply IH.
Qed.
Lemma nom_of_ok mm k : med_ok mm -> nomk (names_of mm) 0 (fields_of (mm_mesh mm)) k = nom_of mm k.
Proof.
  intros H. unfold names_of, nom_of. destruct (mm_nom mm) as [[|x l]|] eqn:E; try apply noms_nil.
  - rewrite noms_nil. destruct (fields_of (mm_mesh mm)); reflexivity.
  - unfold nomk. assert (L := mo_nom mm H _ E ltac:(discriminate)). pose proof (noms_combine (x :: l) (fields_of (mm_mesh mm)) [] L) as G. cbn [app length] in G. now rewrite G.
Qed.
Lemma dget_app {V} k (a b : dict V) : dget k (a ++ b) = match dget k a with Some v => Some v | None => dget k b end.
Proof. induction a as [|[k' v] a IH]; [reflexivity|]. cbn [app dget]. destruct (String.eqb k k'); auto. Qed.
Lemma noms_keys names keys : forall idx, dkeys (noms names idx keys) = keys.
Proof. intros idx. unfold noms, dkeys. apply map_fst_combine. now rewrite map_length, seq_length. Qed.
Lemma nomk_app_l names idx a b k : In k a -> nomk names idx (a ++ b) k = nomk names idx a k.
Proof.
  intros H. unfold nomk. rewrite noms_app, dget_app. destruct (dget k (noms names idx a)) eqn:E; [reflexivity|]. apply dget_None in E. rewrite noms_keys in E. contradiction.
Qed.
Lemma nomk_app_r names idx a b k : ~ In k a -> nomk names idx (a ++ b) k = nomk names (idx + length a) b k.
Proof.
  intros H. unfold nomk. rewrite noms_app, dget_app. destruct (dget k (noms names idx a)) eqn:E; [|reflexivity]. apply dget_In, (in_map fst) in E. fold (dkeys (noms names idx a)) in E. rewrite noms_keys in E. contradiction.
Qed.
Lemma untagged_in tag l k : In k (untagged tag l) <-> In k l /\ k <> tag.
Proof. unfold untagged. rewrite filter_In. destruct (String.eqb_spec k tag); cbn; intuition congruence. Qed.
(** All fields *)
Definition final_field (mm : med_mesh F) (k : string) : option (string * list sitem) :=
  let m := mm_mesh mm in
  let p := if String.eqb k "point_tags" then None else dget k (hm_pd m) in
  let c := if String.eqb k "cell_tags" then None else dget k (hm_cd m) in
  match p, c with
  | None, None => None
  | _, _ => Some (nom_text (nom_of mm k), match p with Some v => [SP v] | None => [] end ++ match c with Some data => items (hm_cells m) data | None => [] end)
  end.
Lemma in_dkeys {V} k (d : dict V) : In k (dkeys d) <-> exists v, dget k d = Some v.
Proof.
  destruct (dget k d) as [v|] eqn:E.
  - split; [eauto|]. intros _. apply dget_In, (in_map fst) in E. exact E.
  - apply dget_None in E. split; [contradiction|]. intros (v & Hv). discriminate.
Qed.
Lemma all_fields mm : med_ok mm -> exists fs fi,
  write_point_fields (names_of mm) (hm_pd (mm_mesh mm)) 0 (Group [] []) = Ok fi /\
  write_cell_fields (names_of mm) (hm_cells (mm_mesh mm)) (hm_cd (mm_mesh mm)) (snd fi) (fst fi) = Ok (tree fs) /\ NoDup (dkeys fs) /\ forall k, dget k fs = final_field mm k.
Proof.
  intros H. set (m := mm_mesh mm). assert (Hm := mo_mesh mm H). fold m in Hm.
  assert (He : enough (names_of mm) (length (fields_of m))).
  { unfold enough, names_of. destruct (mm_nom mm) as [[|x l]|] eqn:E; auto. right. apply (mo_nom mm H _ E). discriminate. }
  assert (Hpk : Forall plain (dkeys (hm_pd m))).
  { unfold dkeys. apply Forall_map. eapply Forall_impl; [|exact (hdf_pd m Hm)]. intros kv (G & _). now apply good_plain. }
  assert (Hck : Forall plain (dkeys (hm_cd m))).
  { unfold dkeys. apply Forall_map. eapply Forall_impl; [|exact (hdf_cd m Hm)]. intros kv (G & _). now apply good_plain. }
  assert (Lf : length (fields_of m) = length (untagged "point_tags" (dkeys (hm_pd m))) + length (untagged "cell_tags" (dkeys (hm_cd m)))) by (unfold fields_of; rewrite app_length; reflexivity).
  destruct (write_points_ok (names_of mm) (length (fields_of m)) He (hm_pd m) 0 [] (hdf_pd_names m Hm) Hpk) as (fs1 & E1 & N1 & G1); [reflexivity|lia|].
  change (tree []) with (@Group F [] []) in E1. fold m. rewrite E1.
  specialize (N1 (NoDup_nil _)). 
  assert (Np : forall k, In k (point_fields m) <-> (k <> "point_tags" /\ exists v, dget k (hm_pd m) = Some v)).
  { intros k. unfold point_fields. fold (dkeys (hm_pd m)). change (In k (untagged "point_tags" (dkeys (hm_pd m))) <-> (k <> "point_tags" /\ exists v, dget k (hm_pd m) = Some v)).
    rewrite untagged_in, in_dkeys. tauto. }
  assert (Ek : forall k, In k (point_fields m) -> nomk (names_of mm) 0 (untagged "point_tags" (dkeys (hm_pd m))) k = nom_of mm k).
  { intros k Hk. rewrite <- nom_of_ok by exact H. fold m. unfold fields_of. rewrite nomk_app_l by exact Hk. reflexivity. }
  destruct (hm_cd m) as [|c0 cd0] eqn:Ecd.
  - exists fs1. eexists. split; [reflexivity|]. cbn [fst snd write_cell_fields]. split; [reflexivity|]. split; [exact N1|].
    intros k. rewrite G1. unfold final_field. fold m. rewrite Ecd. cbn [dget]. replace (if String.eqb k "cell_tags" then None else @None (list (hval F))) with (@None (list (hval F))) by (now destruct (String.eqb k "cell_tags")).
    destruct (String.eqb_spec k "point_tags") as [->|Hk]; [now destruct (dget "point_tags" (hm_pd m))|]. destruct (dget k (hm_pd m)) as [v|] eqn:Ev; [|reflexivity].
    rewrite Ek by (apply Np; eauto). reflexivity.
  - assert (Hne : hm_cells m <> []) by (apply (mo_some mm H); fold m; rewrite Ecd; discriminate). rewrite <- Ecd in *.
    destruct (write_cells_ok (names_of mm) (length (fields_of m)) (hm_cells m) He Hne (mo_types mm H)) with (cd := hm_cd m) (idx := 0 + length (untagged "point_tags" (dkeys (hm_pd m)))) (fs := fs1) as (fs2 & E2 & N2 & G2).
    + eapply Forall_impl; [|exact (mo_cells mm H)]. intros b (B & _). exact B.
    + exact (hdf_cd_names m Hm).
    + exact Hck.
    + exact (mo_cd mm H).
    + intros k t l _ Eg. rewrite G1 in Eg. cbn [dget] in Eg. destruct (dget k (hm_pd m)); [|discriminate]. destruct (String.eqb k "point_tags"); [discriminate|]. injection Eg as <- <-.
      split; [repeat constructor|reflexivity].
    + lia.
    + exists fs2. eexists. split; [reflexivity|]. split; [exact E2|]. split; [auto|].
      intros k. rewrite G2, G1. unfold final_field. fold m. cbn [dget]. destruct (dget k (hm_cd m)) as [data|] eqn:Ec.
      * destruct (String.eqb_spec k "cell_tags") as [->|Hc].
        -- change (String.eqb "cell_tags" "point_tags") with false. cbv iota. destruct (dget "cell_tags" (hm_pd m)) as [v|] eqn:Ev; [|reflexivity].
           rewrite Ek by (apply Np; split; [discriminate|eauto]). reflexivity.
        -- destruct (dget k (hm_pd m)) as [v|] eqn:Ev.
           ++ destruct (String.eqb_spec k "point_tags") as [->|Hp].
              ** do 2 f_equal. f_equal. rewrite <- nom_of_ok by exact H. fold m. unfold fields_of. rewrite nomk_app_r; [reflexivity|]. intros Hin. apply Np in Hin. tauto.
              ** rewrite Ek by (apply Np; eauto). reflexivity.
           ++ replace (if String.eqb k "point_tags" then None else @None (hval F)) with (@None (hval F)) by (now destruct (String.eqb k "point_tags")).
              do 2 f_equal. f_equal. rewrite <- nom_of_ok by exact H. fold m. unfold fields_of. rewrite nomk_app_r; [reflexivity|]. intros Hin. apply Np in Hin. destruct Hin as (_ & v & Hv). congruence.
      * replace (if String.eqb k "cell_tags" then None else @None (list (hval F))) with (@None (list (hval F))) by (now destruct (String.eqb k "cell_tags")).
        destruct (dget k (hm_pd m)) as [v|] eqn:Ev; [|now destruct (String.eqb k "point_tags")]. destruct (String.eqb_spec k "point_tags"); [reflexivity|].
        rewrite Ek by (apply Np; eauto). reflexivity.
Qed.
(** ** Checks *)
Lemma squeezed_array n (v : hval F) : array_of n v -> array_of n (squeezed v).
Proof.
  intros (s & E & C). assert (X : exists s', squeezed_shape (n :: s) = n :: s' /\ size (n :: s') = size (n :: s)).
  { destruct s as [|a [|b [|c s]]]; cbn [squeezed_shape]; try (eexists; split; reflexivity).
    - destruct a as [|[|a]]; eexists; split; try reflexivity; try (unfold size; cbn; lia).
    - destruct a as [|[|a]]; try (eexists; split; reflexivity). destruct b as [|[|b]]; eexists; split; try reflexivity; try (unfold size; cbn; lia).
    - destruct a as [|[|a]]; try (eexists; split; reflexivity). destruct b as [|[|b]]; eexists; split; reflexivity. }
  destruct X as (s' & X1 & X2). exists s'. destruct v as [a|a]; cbn [hv_shape squeezed nd_shape count nd_flat] in *; rewrite E; split; auto; change (fold_right Nat.mul 1 (n :: s')) with (size (n :: s')); rewrite X2; exact C.
Qed.
Lemma check_cells_ok lens (cd : dict (list (option (hval F)))) :
  Forall (fun kv => exists l, snd kv = map Some l /\ Forall2 (fun v n => array_of n v) l lens) cd -> check_cells lens cd = Ok tt.
Proof.
  induction 1 as [|[k d] cd (l & E & H) _ IH]; [reflexivity|]. cbn [snd] in E. subst d. cbn [check_cells]. rewrite map_length, (Forall2_length _ _ _ H), Nat.eqb_refl.
  assert (B : check_blocks (map Some l) lens = Ok tt).
  { clear IH. induction H as [|v n l lens (s & E & _) _ IHl]; [reflexivity|]. cbn [map check_blocks].
    assert (L : hv_len v = Ok n) by (destruct v; cbn [hv_len hv_shape] in *; unfold nd_len; now rewrite E). rewrite L. cbn [bind]. now rewrite Nat.eqb_refl. }
  rewrite B. cbn [bind]. exact IH.
Qed.
Lemma some_back (cd : dict (list (option (hval F)))) : Forall (fun kv => exists l, snd kv = map Some l) cd ->
  exists cd', mapM (fun kv => do l <- mapM (of_option TypeError) (snd kv); Ok (fst kv, l)) cd = Ok cd' /\ dkeys cd' = dkeys cd /\ forall k, dget k cd = option_map (map Some) (dget k cd').
Proof.
  induction 1 as [|[k d] cd (l & E) _ (cd' & E1 & E2 & E3)]; [exists []; repeat split|]. cbn [snd] in E. subst d.
  exists ((k, l) :: cd'). assert (M : mapM (of_option TypeError) (map Some l) = Ok l).
  { apply mapM_Forall2. clear. induction l; constructor; auto. }
  cbn [mapM fst snd]. rewrite M. cbn [bind]. rewrite E1. cbn [bind]. split; [reflexivity|]. split; [cbn; f_equal; exact E2|].
  intros k'. cbn [dget]. destruct (String.eqb k' k); [reflexivity|apply E3].
Qed.
Lemma permute_sigma {A} (sigma : list (nat * block)) (l : list A) d : Forall (fun kb => fst kb < length l) sigma -> permute (map fst sigma) l = Some (map (fun kb => nth (fst kb) l d) sigma).
Proof.
  unfold permute. induction 1 as [|kb sigma H _ IH]; [reflexivity|]. cbn [map mapO]. rewrite (nth_error_nth' l d) by exact H. now rewrite IH.
Qed.
Lemma keys_sorted {A} (l : list (string * A)) : StronglySorted (fun a b => String.leb a b = true) (map fst (sorted_items l)).
Proof.
  pose proof (sorted_sorted l) as H. induction H as [|x l' H IH Hx]; cbn [map]; constructor; auto. apply Forall_map. exact Hx.
Qed.
Lemma read_open d noe mai fas (cha : h5 F) :
  read_med (Group [] [("ENS_MAA", Group [] [("mesh", Group [("ESP", nat_attr d)] [(mesh_step, Group [] [("NOE", noe); ("MAI", mai)])])]); ("FAS", Group [] [("mesh", fas)]); ("CHA", cha)]) =
  do coo <- h5_get noe "COO";
  do n <- attr_int coo "NBR";
  do v <- h5_value coo;
  do a <- hv_map (fun A => reshape_f [Z.to_nat n; Z.to_nat (Z.of_nat d)]) v;
  do pts <- real_rows a;
  do pd <- (if h5_mem noe "FAM" then do x <- h5_get noe "FAM"; do w <- h5_value x; Ok [("point_tags", w)] else Ok []);
  do ptags <- (if h5_mem fas "NOEUD" then bind (h5_get fas "NOEUD") read_families else Ok []);
  do its <- h5_items mai;
  do bl <- mapM read_med_block its;
  let cells := map fst bl in
  let types := map fst cells in
  let tags := flat_map (fun x => match snd x with Some w => [w] | None => [] end) bl in
  let cd := match tags with [] => [] | _ => [("cell_tags", map Some tags)] end in
  do ctags <- (if h5_mem fas "ELEME" then bind (h5_get fas "ELEME") read_families else Ok []);
  do d <- (do fi <- h5_items cha; read_fields types fi (MedData pd cd None));
  do bs <- make_blocks cells;
  do _ <- check_points (length (snd pts)) (md_pd d);
  do _ <- check_cells (map blen bs) (md_cd d);
  do cd' <- mapM (fun kv => do l <- mapM (of_option TypeError) (snd kv); Ok (fst kv, l)) (md_cd d);
  Ok (MedMesh (HMesh (fst pts) (snd pts) bs (md_pd d) cd') (md_nom d) (Some ptags) (Some ctags)).
Proof. reflexivity. Qed.
Lemma shape_cases n (v : hval F) : array_of n v -> length (hv_shape v) <= 2 -> hv_shape v = [n] \/ exists c, hv_shape v = [n; c].
Proof. intros (s & E & _) L. rewrite E in *. destruct s as [|c [|? s]]; cbn in L; [auto|eauto|lia]. Qed.
Lemma families_open which other pt ct z : which <> other -> (which = "NOEUD" \/ which = "ELEME") -> families_ok pt -> families_ok ct ->
  forall tags, (which, other, tags) = ("NOEUD", "ELEME", pt) \/ (which, other, tags) = ("ELEME", "NOEUD", ct) ->
  exists r, (if h5_mem (Group [] (("FAMILLE_ZERO", z) :: fpart "NOEUD" pt ++ fpart "ELEME" ct)) which
             then bind (h5_get (Group [] (("FAMILLE_ZERO", z) :: fpart "NOEUD" pt ++ fpart "ELEME" ct)) which) (read_families (F := F)) else Ok []) = Ok r /\ forall id, zget id r = family tags id.
Proof.
  intros Hwo Hw Hp Hc tags Ht. unfold h5_mem, h5_get, dmem.
  assert (E : dget which (("FAMILLE_ZERO", z) :: fpart "NOEUD" pt ++ fpart "ELEME" ct) = match tags with None | Some [] => None | Some l => Some (Group [] (map famnode l)) end).
  { destruct Ht as [Ht|Ht]; injection Ht as -> -> ->; destruct pt as [[|x l]|], ct as [[|y l']|]; reflexivity. }
  rewrite E. assert (Hf : families_ok tags) by (destruct Ht as [Ht|Ht]; injection Ht as -> -> ->; auto).
  destruct tags as [[|x l]|]; try (exists []; split; reflexivity). destruct Hf as (N & G). cbn [of_option bind]. apply families_read; auto.
Qed.
Lemma med_roundtrip (mm : med_mesh F) : med_ok mm -> families_ok (mm_point_tags mm) -> families_ok (mm_cell_tags mm) ->
  exists p bs pd cd names pt ct,
  bind (write_med mm) read_med = Ok (MedMesh (HMesh (hm_dim (mm_mesh mm)) (hm_points (mm_mesh mm)) bs pd cd)
    (match names with [] => None | _ => Some (map (fun k => split_ws (nom_text (nom_of mm k))) names) end) (Some pt) (Some ct)) /\
  Permutation p (seq 0 (length (hm_cells (mm_mesh mm)))) /\ permute p (hm_cells (mm_mesh mm)) = Some bs /\
  (forall k, dget k pd = option_map (fun v => if String.eqb k "point_tags" then v else squeezed v) (dget k (hm_pd (mm_mesh mm)))) /\
  (forall k, match dget k (hm_cd (mm_mesh mm)) with
             | None => dget k cd = None
             | Some data => exists data', permute p data = Some data' /\ dget k cd = Some (if String.eqb k "cell_tags" then data' else map squeezed data')
             end) /\
  NoDup (dkeys pd) /\ NoDup (dkeys cd) /\
  StronglySorted (fun a b => String.leb a b = true) names /\ NoDup names /\ (forall k, In k names <-> In k (fields_of (mm_mesh mm))) /\
  (forall id, zget id pt = family (mm_point_tags mm) id) /\ (forall id, zget id ct = family (mm_cell_tags mm) id).
Proof.
  intros H Hp Hc. set (m := mm_mesh mm). assert (Hm := mo_mesh mm H). fold m in Hm.
  assert (Ht : Forall (fun b => In (btype b) (dkeys meshio_to_med_type)) (hm_cells m)) by (eapply Forall_impl; [|exact (mo_cells mm H)]; intros b (B & _); exact B).
  assert (Htag : forall l, dget "cell_tags" (hm_cd m) = Some l -> length l = length (hm_cells m)).
  { intros l E. apply dget_In in E. pose proof (hdf_cd m Hm) as G. rewrite Forall_forall in G. destruct (G _ E) as (_ & G2). apply (Forall2_length _ _ _ G2). }
  assert (Ebl : mapM (med_block (hm_cd m)) (enumerate (hm_cells m)) = Ok (map (bnode (hm_cd m)) (enumerate (hm_cells m)))).
  { apply mapM_Forall2. assert (G : Forall (fun kb => med_block (hm_cd m) kb = Ok (bnode (hm_cd m) kb)) (enumerate (hm_cells m))).
    { apply Forall_forall. intros [k b] Hin. apply med_block_ok; cbn [fst snd].
      - rewrite Forall_forall in Ht. apply Ht. eapply in_combine_r; exact Hin.
      - intros l E. rewrite (Htag l E). apply in_combine_l, in_seq in Hin. lia. }
    clear -G. induction G; constructor; auto. }
  assert (Emai : h5_create_all (map (bnode (hm_cd m)) (enumerate (hm_cells m))) (Group [] []) = Ok (Group [] (map (bnode (hm_cd m)) (enumerate (hm_cells m))))).
  { rewrite create_all; [reflexivity| | |intros n _ []].
    - unfold dkeys. rewrite map_map. apply Forall_map. apply Forall_forall. intros [k b] Hin. cbn [bnode fst snd]. rewrite Forall_forall in Ht.
      destruct (mname_ok (btype b)) as (_ & _ & P & _); [apply Ht; eapply in_combine_r; exact Hin|exact P].
    - unfold dkeys. rewrite map_map. cbn [bnode fst]. assert (N := mo_types mm H). fold m in N. unfold distinct_types in N.
      rewrite <- (enumerate_snd (hm_cells m)) in N, Ht. rewrite map_map in N. revert N Ht. generalize (enumerate (hm_cells m)). intros l. induction l as [|x l IH]; intros N T; [constructor|].
      cbn [map] in *. inversion N; subst. inversion T; subst. constructor; auto. intros Hin. apply in_map_iff in Hin. destruct Hin as (y & Ey & Hy). apply H2.
      apply mname_inj in Ey; [|rewrite Forall_forall in H5; apply H5; now apply in_map|assumption]. rewrite <- Ey. now apply (in_map (fun x => btype (snd x))). }
  destruct (all_fields mm H) as (fs & fi & F1 & F2 & Nfs & Gfs). fold m in F1, F2.
  set (zero := Group [("NUM", AInt 0)] [] : h5 F).
  assert (W : write_med mm = Ok (Group [] [("ENS_MAA", Group [] [("mesh", Group [("ESP", nat_attr (hm_dim m))] [(mesh_step, Group [] [("NOE", med_nodes m); ("MAI", Group [] (map (bnode (hm_cd m)) (enumerate (hm_cells m))))])])]);
     ("FAS", Group [] [("mesh", Group [] (("FAMILLE_ZERO", zero) :: fpart "NOEUD" (mm_point_tags mm) ++ fpart "ELEME" (mm_cell_tags mm)))]); ("CHA", tree fs)])).
  { unfold write_med. fold m. cbv zeta. assert (Nd := nodup_fixed_point string_dec (mo_types mm H)). fold m in Nd. rewrite Nd. clear Nd. rewrite Nat.eqb_refl. cbn [negb].
    rewrite Ebl. cbn [bind]. rewrite Emai. cbn [bind]. fold zero. rewrite families_written; [|exact Hp|reflexivity|cbn; intuition discriminate]. cbn [bind].
    rewrite families_written; [|exact Hc|reflexivity|]. 2: { cbn [app dkeys map fst In]. unfold fpart. destruct (mm_point_tags mm) as [[|? ?]|]; cbn; intuition discriminate. }
    cbn [bind]. unfold names_of in F1, F2. rewrite F1. cbn [bind]. rewrite F2. cbn [bind]. rewrite <- app_assoc. reflexivity. }
  rewrite W. cbn [bind]. rewrite read_open.
  (* points *)
  unfold med_nodes at 1. rewrite get_here. cbn [bind]. assert (A : forall x z (v : hval F), attr_int (Dataset [(x, nat_attr z)] v) x = Ok (Z.of_nat z)) by (intros; apply attr_int_here). rewrite A. cbn [bind h5_value]. rewrite !Nat2Z.id.
  assert (Ep : hv_map (fun A => reshape_f [length (hm_points m); hm_dim m]) (hv_flatten_f (point_array m)) = Ok (point_array m)).
  { unfold point_array. cbn [hv_flatten_f hv_map]. pose proof (reshape_flatten (Nda [length (hm_points m); hm_dim m] (concat (hm_points m)))) as R. cbn [nd_shape] in R. rewrite R; [reflexivity|].
    unfold nd_ok. cbn [nd_shape nd_flat]. rewrite (concat_rect_length _ (hm_dim m)) by exact (hdf_points m Hm). unfold size. cbn. lia. }
  rewrite Ep. cbn [bind]. rewrite real_rows_points by exact (hdf_points m Hm). cbn [bind].
  set (pd0 := match dget "point_tags" (hm_pd m) with Some v => [("point_tags", v)] | None => [] end : dict (hval F)).
  assert (Epd : (if h5_mem (med_nodes m) "FAM" then do x <- h5_get (med_nodes m) "FAM"; do w <- h5_value x; Ok [("point_tags", w)] else Ok []) = Ok pd0).
  { unfold med_nodes, pd0. destruct (dget "point_tags" (hm_pd m)); reflexivity. }
  rewrite Epd. cbn [bind]. clear Epd.
  (* families *)
  destruct (families_open "NOEUD" "ELEME" (mm_point_tags mm) (mm_cell_tags mm) zero ltac:(discriminate) (or_introl eq_refl) Hp Hc (mm_point_tags mm) (or_introl eq_refl)) as (pt & Ept & Gpt).
  destruct (families_open "ELEME" "NOEUD" (mm_point_tags mm) (mm_cell_tags mm) zero ltac:(discriminate) (or_intror eq_refl) Hp Hc (mm_cell_tags mm) (or_intror eq_refl)) as (ct & Ect & Gct).
  rewrite Ept. cbn [bind]. cbn [h5_items bind].
  (* blocks *)
  destruct (Permutation_map_inv _ _ (sorted_perm (map (bnode (hm_cd m)) (enumerate (hm_cells m))))) as (sigma & Es & Ps). rewrite Es.
  assert (Hsig : Forall (fun kb => In (snd kb) (hm_cells m) /\ fst kb < length (hm_cells m)) sigma).
  { eapply Permutation_Forall; [exact Ps|]. apply Forall_forall. intros [k b] Hin. cbn [fst snd]. split; [eapply in_combine_r; exact Hin|]. apply in_combine_l, in_seq in Hin. lia. }
  assert (Erd : mapM read_med_block (map (bnode (hm_cd m)) sigma) = Ok (map (fun kb => (btype (snd kb), bdata (snd kb), tag (hm_cd m) (fst kb))) sigma)).
  { apply mapM_Forall2. clear -Hsig H Hm. induction Hsig as [|kb sigma (B & _) _ IH]; constructor; auto. apply read_block_ok.
    - pose proof (mo_cells mm H) as G. rewrite Forall_forall in G. now apply G.
    - pose proof (mo_cells mm H) as G. rewrite Forall_forall in G. now apply G.
    - pose proof (hdf_blocks m Hm) as G. rewrite Forall_forall in G. now apply G. }
  rewrite Erd. cbn [bind]. cbv zeta. rewrite !map_map. cbn [fst snd].
  set (types := map (fun kb : nat * block => btype (snd kb)) sigma).
  assert (Pb : Permutation (hm_cells m) (map snd sigma)).
  { rewrite <- (enumerate_snd (hm_cells m)) at 1. apply Permutation_map, Ps. }
  assert (Nt : NoDup types).
  { unfold types. rewrite <- map_map. eapply Permutation_NoDup; [apply Permutation_map, Pb|exact (mo_types mm H)]. }
  assert (Ls : length sigma = length (hm_cells m)) by (rewrite <- (map_length snd sigma); symmetry; apply Permutation_length, Pb).
  set (cd0 := match dget "cell_tags" (hm_cd m) with Some l => [("cell_tags", map (fun kb : nat * block => Some (nth (fst kb) l dv)) sigma)] | None => [] end : dict (list (option (hval F)))).
  assert (Ecd : match flat_map (fun x : string * list cell * option (hval F) => match snd x with Some w => [w] | None => [] end)
                        (map (fun kb : nat * block => (btype (snd kb), bdata (snd kb), tag (hm_cd m) (fst kb))) sigma) with
                | [] => [] | _ => [("cell_tags", map Some (flat_map (fun x : string * list cell * option (hval F) => match snd x with Some w => [w] | None => [] end)
                        (map (fun kb : nat * block => (btype (snd kb), bdata (snd kb), tag (hm_cd m) (fst kb))) sigma)))] end = cd0).
  { unfold cd0, tag. destruct (dget "cell_tags" (hm_cd m)) as [l|] eqn:El.
    - assert (X : flat_map (fun x : string * list cell * option (hval F) => match snd x with Some w => [w] | None => [] end)
                    (map (fun kb : nat * block => (btype (snd kb), bdata (snd kb), nth_error l (fst kb))) sigma) = map (fun kb : nat * block => nth (fst kb) l dv) sigma).
      { rewrite <- (Htag l eq_refl) in Hsig. clear -Hsig. induction Hsig as [|kb sigma (_ & B) _ IH]; [reflexivity|]. cbn [map flat_map snd].
        rewrite (nth_error_nth' l dv) by exact B. cbn [app]. now rewrite IH. }
      rewrite X. rewrite map_map. destruct sigma as [|x sigma']; [|reflexivity]. exfalso. cbn in Ls. apply (mo_some mm H); fold m; [|now destruct (hm_cells m)]. intros E0. rewrite E0 in El. discriminate.
    - assert (X : flat_map (fun x : string * list cell * option (hval F) => match snd x with Some w => [w] | None => [] end)
                    (map (fun kb : nat * block => (btype (snd kb), bdata (snd kb), None)) sigma) = []) by (clear; induction sigma; auto).
      now rewrite X. }
  rewrite Ecd. clear Ecd. rewrite Ect. cbn [bind]. unfold tree. cbn [h5_items bind]. rewrite sorted_map.
  (* fields *)
  assert (Hgood : Forall (fun kf => good_field types (snd kf)) (sorted_items fs)).
  { eapply Permutation_Forall; [symmetry; apply sorted_perm|]. apply Forall_forall. intros [k f] Hin. apply In_dget in Hin; [|exact Nfs]. rewrite Gfs in Hin. cbn [snd].
    unfold final_field in Hin. fold m in Hin. set (pv := if String.eqb k "point_tags" then None else dget k (hm_pd m)) in *. set (cv := if String.eqb k "cell_tags" then None else dget k (hm_cd m)) in *.
    assert (G1 : Forall (good_item types) (match pv with Some v => [SP v] | None => [] end) /\ types_in (match pv with Some v => [SP v] | None => [] end) = [] /\ cells_at types (match pv with Some v => [SP v] | None => [] end) = []
                 /\ length (points_of (match pv with Some v => [SP v] | None => [] end)) <= 1).
    { destruct pv as [v|] eqn:Ev; [|cbn; auto]. unfold pv in Ev. destruct (String.eqb_spec k "point_tags") as [|Hk]; [discriminate|]. apply dget_In in Ev.
      pose proof (hdf_pd m Hm) as D. rewrite Forall_forall in D. destruct (D _ Ev) as (_ & D1). cbn [snd] in D1. pose proof (mo_pd mm H) as D2. rewrite Forall_forall in D2. destruct (D2 _ Ev) as [D3|D3]; cbn [fst snd] in D3; [contradiction|].
      split; [|cbn; auto]. constructor; [|constructor]. split; [eapply array_hv; exact D1|]. exists (length (hm_points m)). split; [pose proof (mo_points mm H) as Q; fold m in Q; destruct (hm_points m); [contradiction|discriminate]|]. now apply shape_cases. }
    destruct G1 as (G1 & _ & G3 & G4).
    assert (G2 : Forall (good_item types) (match cv with Some data => items (hm_cells m) data | None => [] end) /\ NoDup (map fst (cells_at types (match cv with Some data => items (hm_cells m) data | None => [] end)))
                 /\ points_of (match cv with Some data => items (hm_cells m) data | None => [] end) = []).
    { destruct cv as [data|] eqn:Ev; [|cbn; repeat split; constructor]. unfold cv in Ev. destruct (String.eqb_spec k "cell_tags") as [|Hk]; [discriminate|]. apply dget_In in Ev.
      pose proof (hdf_cd m Hm) as D. rewrite Forall_forall in D. destruct (D _ Ev) as (_ & D1). cbn [snd] in D1. pose proof (mo_cd mm H) as D2. rewrite Forall_forall in D2. destruct (D2 _ Ev) as [D3|D3]; cbn [fst snd] in D3; [contradiction|]. fold m in D3.
      split; [|split].
      - apply Forall_forall. intros x Hx. unfold items in Hx. apply in_map_iff in Hx. destruct Hx as ([b v] & <- & Hbv). cbn [fst snd].
        assert (Hb := in_combine_l _ _ _ _ Hbv). apply In_nth_error in Hbv. destruct Hbv as (j & Hj). apply nth_error_combine in Hj. destruct Hj as (Hj1 & Hj2).
        destruct (Forall2_nth_error_l _ _ _ D1 j v Hj2) as (b' & Hb' & A1). rewrite Hj1 in Hb'. injection Hb' as <-.
        destruct (Forall2_nth_error_l _ _ _ D3 j v Hj2) as (b' & Hb' & A2). rewrite Hj1 in Hb'. injection Hb' as <-.
        pose proof (mo_cells mm H) as C. rewrite Forall_forall in C. destruct (C b Hb) as (C1 & C2). unfold item. split; [|split; [exact C1|split; [eapply array_hv; exact A1|]]].
        + unfold types. rewrite <- map_map. apply in_map. eapply Permutation_in; [exact Pb|exact Hb].
        + exists (length (bdata b)). split; [destruct (bdata b); [contradiction|discriminate]|]. unfold sup_of. destruct (Nat.leb_spec (length (hv_shape v)) 2) as [L2|L2].
          * left. split; [reflexivity|]. now apply shape_cases.
          * right. split; [reflexivity|]. destruct A2 as [A2|(n & g & c & A2 & A3)]; [lia|]. exists g, c. destruct (mname_ok _ C1) as (_ & _ & _ & _ & _ & C3). specialize (C3 g A3). split; [lia|].
            destruct A1 as (s & A1 & _). rewrite A1 in A2. injection A2 as _ ->. exact A1.
      - assert (L : length data = length (hm_cells m)) by (apply (Forall2_length _ _ _ D1)). exact (proj2 (fills_sigma types sigma (hm_cells m) data Ps eq_refl Nt L)).
      - unfold items. clear. induction (combine (hm_cells m) data) as [|x l IH]; [reflexivity|exact IH]. }
    destruct G2 as (G5 & G6 & G7).
    assert (Ef : snd f = match pv with Some v => [SP v] | None => [] end ++ match cv with Some data => items (hm_cells m) data | None => [] end) by (destruct pv, cv; try discriminate; injection Hin as <-; reflexivity).
    unfold good_field. rewrite Ef. split; [apply Forall_app; auto|]. unfold cells_at, points_of in *. rewrite !flat_map_app. rewrite G3, G7. cbn [app]. split; [exact G6|]. now rewrite app_nil_r. }
  destruct (fields_ok types (sorted_items fs) (MedData pd0 cd0 None) (sorted_keys_nodup _ Nfs) Hgood) as (d & Ed & Md & Dp & Dc & Np & Nc). cbn [md_pd md_cd md_nom] in *.
  rewrite Ed. cbn [bind]. clear Ed.
  assert (Eb : map (fun x : nat * block => (btype (snd x), bdata (snd x))) sigma = map (fun b => (btype b, bdata b)) (map snd sigma)) by (now rewrite map_map). rewrite Eb.
  rewrite make_blocks_ok. 2: { eapply Permutation_Forall; [exact Pb|]. eapply Forall_impl; [|exact (hdf_blocks m Hm)]. intros b (B & _). exact B. }
  cbn [bind fst snd].
  assert (Np' : NoDup (dkeys (md_pd d))).
  { apply Np. unfold pd0. destruct (dget "point_tags" (hm_pd m)); cbn; repeat constructor. intros []. }
  assert (Nc' : NoDup (dkeys (md_cd d))).
  { apply Nc. unfold cd0. destruct (dget "cell_tags" (hm_cd m)); cbn; repeat constructor. intros []. }
  assert (Rp : forall k, dget k (md_pd d) = option_map (fun v => if String.eqb k "point_tags" then v else squeezed v) (dget k (hm_pd m))).
  { intros k. rewrite Dp, sorted_dget by exact Nfs. rewrite Gfs. unfold final_field. fold m. unfold pd0. destruct (String.eqb_spec k "point_tags") as [->|Hk].
    - change (String.eqb "point_tags" "cell_tags") with false. cbv iota. assert (Z0 : dget "point_tags" (match dget "point_tags" (hm_pd m) with Some v => [("point_tags", v)] | None => [] end) = dget "point_tags" (hm_pd m)) by (destruct (dget "point_tags" (hm_pd m)); reflexivity).
      rewrite Z0. assert (Z1 : forall data, points_of (items (hm_cells m) data) = []) by (intros data; unfold items; induction (combine (hm_cells m) data) as [|x l IH]; [reflexivity|exact IH]).
      destruct (dget "point_tags" (hm_cd m)) as [data|]; cbn [field_point app option_map]; [rewrite Z1|]; now destruct (dget "point_tags" (hm_pd m)).
    - assert (Z0 : dget k (match dget "point_tags" (hm_pd m) with Some v => [("point_tags", v)] | None => [] end) = None) by (destruct (dget "point_tags" (hm_pd m)); [cbn; destruct (String.eqb_spec k "point_tags"); [contradiction|reflexivity]|reflexivity]).
      rewrite Z0. assert (Z1 : forall data, points_of (items (hm_cells m) data) = []) by (intros data; unfold items; induction (combine (hm_cells m) data) as [|x l IH]; [reflexivity|exact IH]).
      destruct (dget k (hm_pd m)) as [v|]; [reflexivity|]. destruct (if String.eqb k "cell_tags" then None else dget k (hm_cd m)) as [data|]; cbn [field_point app option_map]; [now rewrite Z1|reflexivity]. }
  rewrite check_points_ok. 2: { apply Forall_forall. intros [k v] Hin. apply In_dget in Hin; [|exact Np']. rewrite Rp in Hin. cbn [snd]. destruct (dget k (hm_pd m)) as [v0|] eqn:Ev; [|discriminate].
       apply dget_In in Ev. pose proof (hdf_pd m Hm) as D. rewrite Forall_forall in D. destruct (D _ Ev) as (_ & D1). cbn [snd] in D1. cbn [option_map] in Hin. injection Hin as <-.
       destruct (String.eqb k "point_tags"); [exact D1|now apply squeezed_array]. }
  cbn [bind].
  assert (Rc : forall k, dget k (md_cd d) = option_map (fun data => map (fun kb : nat * block => Some (if String.eqb k "cell_tags" then nth (fst kb) data dv else squeezed (nth (fst kb) data dv))) sigma) (dget k (hm_cd m))).
  { intros k. rewrite Dc, sorted_dget by exact Nfs. rewrite Gfs. unfold final_field. fold m. unfold cd0. destruct (String.eqb_spec k "cell_tags") as [->|Hk].
    - change (String.eqb "cell_tags" "point_tags") with false. cbv iota.
      assert (Z0 : dget "cell_tags" (match dget "cell_tags" (hm_cd m) with Some l => [("cell_tags", map (fun kb : nat * block => Some (nth (fst kb) l dv)) sigma)] | None => [] end) =
                   option_map (fun data => map (fun kb : nat * block => Some (nth (fst kb) data dv)) sigma) (dget "cell_tags" (hm_cd m))) by (destruct (dget "cell_tags" (hm_cd m)); reflexivity).
      rewrite Z0. destruct (dget "cell_tags" (hm_pd m)); cbn [field_cells app cells_at flat_map]; reflexivity.
    - assert (Z0 : dget k (match dget "cell_tags" (hm_cd m) with Some l => [("cell_tags", map (fun kb : nat * block => Some (nth (fst kb) l dv)) sigma)] | None => [] end) = None) by (destruct (dget "cell_tags" (hm_cd m)); [cbn [dget]; destruct (String.eqb_spec k "cell_tags"); [contradiction|reflexivity]|reflexivity]).
      rewrite Z0. destruct (dget k (hm_cd m)) as [data|] eqn:Ev.
      + apply dget_In in Ev. pose proof (hdf_cd m Hm) as D. rewrite Forall_forall in D. destruct (D _ Ev) as (_ & D1). cbn [snd] in D1.
        assert (L : length data = length (hm_cells m)) by (apply (Forall2_length _ _ _ D1)).
        destruct (fills_sigma types sigma (hm_cells m) data Ps eq_refl Nt L) as (Fs & _). cbn [option_map].
        assert (Hne : cells_at types (items (hm_cells m) data) <> []).
        { rewrite cells_at_items by exact L. assert (Hc0 : hm_cells m <> []) by (apply (mo_some mm H); intros E0; fold m in E0; rewrite E0 in Ev; destruct Ev). destruct (hm_cells m); [contradiction|discriminate]. }
        destruct (if String.eqb k "point_tags" then None else dget k (hm_pd m)) as [v|]; cbn [field_cells app]; [change (cells_at types (SP v :: items (hm_cells m) data)) with (cells_at types (items (hm_cells m) data))|];
          destruct (cells_at types (items (hm_cells m) data)) as [|c r] eqn:Ec; try contradiction; now rewrite Fs.
      + destruct (if String.eqb k "point_tags" then None else dget k (hm_pd m)) as [v|]; reflexivity. }
  assert (Sc : Forall (fun kv => exists l, snd kv = map Some l /\ Forall2 (fun v n => array_of n v) l (map blen (map snd sigma))) (md_cd d)).
  { apply Forall_forall. intros [k dl] Hin. apply In_dget in Hin; [|exact Nc']. rewrite Rc in Hin. cbn [snd]. destruct (dget k (hm_cd m)) as [data|] eqn:Ev; [|discriminate]. cbn [option_map] in Hin. injection Hin as <-.
    apply dget_In in Ev. pose proof (hdf_cd m Hm) as D. rewrite Forall_forall in D. destruct (D _ Ev) as (_ & D1). cbn [snd] in D1.
    exists (map (fun kb : nat * block => if String.eqb k "cell_tags" then nth (fst kb) data dv else squeezed (nth (fst kb) data dv)) sigma). split; [now rewrite map_map|].
    assert (Hs2 : Forall (fun kb => array_of (length (bdata (snd kb))) (nth (fst kb) data dv)) sigma).
    { eapply Permutation_Forall; [exact Ps|]. apply Forall_forall. intros [i b] Hib. apply In_nth_error in Hib. destruct Hib as (j & Hj). apply nth_error_enumerate in Hj. destruct Hj as (b' & Hb' & Eb'). injection Eb' as -> <-.
      cbn [fst snd]. destruct (Forall2_nth_error_r _ _ _ D1 j b Hb') as (v & Hv & A1). now rewrite (nth_error_nth _ _ dv Hv). }
    clear -Hs2. induction Hs2 as [|kb sigma Hk _ IH]; cbn [map]; constructor; auto. unfold blen. destruct (String.eqb k "cell_tags"); [exact Hk|now apply squeezed_array]. }
  rewrite check_cells_ok by exact Sc. cbn [bind].
  destruct (some_back (md_cd d)) as (cd' & E1 & E2 & E3); [eapply Forall_impl; [|exact Sc]; intros kv (l & El & _); eauto|]. rewrite E1. cbn [bind].
  (* the result *)
  exists (map fst sigma), (map snd sigma), (md_pd d), cd', (dkeys (sorted_items fs)), pt, ct.
  assert (En : md_nom d = match dkeys (sorted_items fs) with [] => None | _ => Some (map (fun k => split_ws (nom_text (nom_of mm k))) (dkeys (sorted_items fs))) end).
  { rewrite Md. cbn [app]. assert (X : map (fun kf : string * (string * list sitem) => split_ws (fst (snd kf))) (sorted_items fs) = map (fun k => split_ws (nom_text (nom_of mm k))) (dkeys (sorted_items fs))).
    { unfold dkeys. rewrite map_map. apply map_ext_in. intros [k f] Hin. cbn [fst snd]. apply In_dget in Hin; [|now apply sorted_keys_nodup]. rewrite sorted_dget in Hin by exact Nfs. rewrite Gfs in Hin. unfold final_field in Hin.
      destruct (if String.eqb k "point_tags" then None else dget k (hm_pd (mm_mesh mm))), (if String.eqb k "cell_tags" then None else dget k (hm_cd (mm_mesh mm))); try discriminate; injection Hin as <-; reflexivity. }
    rewrite X. destruct (sorted_items fs); reflexivity. }
  rewrite En. split; [reflexivity|]. split.
  { symmetry. eapply Permutation_trans; [|apply Permutation_map, Ps]. unfold enumerate. rewrite map_fst_combine by (now rewrite seq_length). reflexivity. }
  split.
  { destruct (hm_cells m) as [|b0 bs0] eqn:Ecells; [apply Permutation_nil in Pb; destruct sigma; [reflexivity|discriminate]|]. rewrite <- Ecells in *.
    rewrite (permute_sigma sigma (hm_cells m) b0) by (eapply Forall_impl; [|exact Hsig]; intros kb (_ & B); exact B). f_equal. apply map_ext_in. intros [i b] Hib.
    eapply Permutation_in in Hib; [|symmetry; exact Ps]. apply In_nth_error in Hib. destruct Hib as (j & Hj). apply nth_error_enumerate in Hj. destruct Hj as (b' & Hb' & Eb'). injection Eb' as -> <-. cbn [fst snd]. now apply nth_error_nth. }
  split; [exact Rp|]. split.
  { intros k. specialize (E3 k). rewrite Rc in E3. destruct (dget k (hm_cd m)) as [data|] eqn:Ev; cbn [option_map] in E3.
    - exists (map (fun kb : nat * block => nth (fst kb) data dv) sigma). split.
      + apply permute_sigma. apply dget_In in Ev. pose proof (hdf_cd m Hm) as D. rewrite Forall_forall in D. destruct (D _ Ev) as (_ & D1). cbn [snd] in D1. rewrite (Forall2_length _ _ _ D1).
        eapply Forall_impl; [|exact Hsig]. intros kb (_ & B). exact B.
      + destruct (dget k cd') as [l|]; [|discriminate]. cbn [option_map] in E3. injection E3 as E3. f_equal.
        assert (Inj : forall (a b : list (hval F)), map Some a = map Some b -> a = b) by (induction a as [|x a IHa]; intros [|y b] Hab; try discriminate; [reflexivity|]; cbn in Hab; injection Hab as -> Hab; f_equal; auto).
        apply Inj. rewrite <- E3. destruct (String.eqb k "cell_tags"); now rewrite ?map_map.
    - destruct (dget k cd'); [discriminate|reflexivity]. }
  split; [exact Np'|]. split; [rewrite E2; exact Nc'|]. split; [apply keys_sorted|]. split; [now apply sorted_keys_nodup|]. split; [|auto].
  intros k. rewrite in_dkeys. rewrite sorted_dget by exact Nfs. rewrite Gfs. unfold final_field. fold m. unfold fields_of. rewrite in_app_iff.
  change (point_fields m) with (untagged "point_tags" (dkeys (hm_pd m))). change (cell_fields m) with (untagged "cell_tags" (dkeys (hm_cd m))). rewrite !untagged_in, !in_dkeys.
  destruct (String.eqb_spec k "point_tags") as [Hp0|Hp0], (String.eqb_spec k "cell_tags") as [Hc0|Hc0]; try congruence;
    repeat match goal with |- context [dget ?a ?b] => destruct (dget a b) end;
    split; intros X; repeat match goal with Y : exists _, _ |- _ => destruct Y | Y : _ /\ _ |- _ => destruct Y | Y : _ \/ _ |- _ => destruct Y end; try discriminate; try congruence; eauto 6.
Qed.

(** ** Component names *)
Lemma split_blanks n s : split_ws (String.concat "" (repeat " " n) ++ s)%string = split_ws s.
Proof.
  induction n as [|n IH]; [reflexivity|]. assert (E : forall l, String.concat "" (" " :: l) = String " " (String.concat "" l)) by (intros [|y l]; reflexivity).
  cbn [repeat]. rewrite E. cbn [append]. rewrite split_ws_space by reflexivity. exact IH.
Qed.
Lemma split_pad w s : component w -> split_ws (pad16 w ++ s)%string = w :: split_ws s.
Proof.
  intros (Hw & Hl). unfold pad16. destruct (16 - String.length w) as [|n] eqn:E; [lia|].
  assert (E' : forall l, String.concat "" (" " :: l) = String " " (String.concat "" l)) by (intros [|y l]; reflexivity).
  cbn [repeat]. rewrite E'. rewrite <- str_app_assoc || rewrite str_app_assoc. cbn [append].
  match goal with |- split_ws (w ++ String _ ?r)%string = _ => rewrite (split_ws_word_space w " " r Hw eq_refl) end. f_equal. apply split_blanks.
Qed.
Lemma names_back nom : Forall component nom -> split_ws (nom_text nom) = nom.
Proof.
  intros H. unfold nom_text. destruct nom as [|w0 nom0]; [reflexivity|]. set (nom := w0 :: nom0) in *. clearbody nom. clear w0 nom0.
  induction H as [|w nom Hw _ IH]; [reflexivity|]. cbn [map].
  assert (E : String.concat "" (pad16 w :: map pad16 nom) = (pad16 w ++ String.concat "" (map pad16 nom))%string).
  { destruct (map pad16 nom); cbn [String.concat]; [now rewrite str_app_nil_r|reflexivity]. }
  rewrite E, split_pad by exact Hw. now rewrite IH.
Qed.
Lemma permuted {A} p (row out : list A) n : Permutation p (seq 0 n) -> n = length row -> permute p row = Some out -> Permutation out row.
Proof.
  intros P -> E. destruct row as [|d row']; [cbn in P; apply Permutation_sym, Permutation_nil in P; subst p; cbn in E; injection E as <-; constructor|].
  set (row := d :: row') in *. assert (L : Forall (fun i => i < length row) p) by (apply Forall_forall; intros i Hi; eapply Permutation_in in Hi; [|exact P]; apply in_seq in Hi; lia).
  assert (E2 : permute p row = Some (map (fun i => nth i row d) p)).
  { clear -L. induction L as [|i p Hi _ IH]; [reflexivity|]. unfold permute in *. cbn [mapO map]. rewrite (nth_error_nth' row d) by exact Hi. now rewrite IH. }
  assert (E4 : out = map (fun i => nth i row d) p) by congruence. rewrite E4. rewrite (Permutation_map (fun i => nth i row d) P).
  assert (E3 : map (fun i => nth i row d) (seq 0 (length row)) = row); [|now rewrite E3].
  apply nth_error_ext. intros i. rewrite nth_error_map. destruct (Nat.lt_ge_cases i (length row)) as [Hi|Hi].
  - rewrite (nth_error_nth' (seq 0 (length row)) 0) by (now rewrite seq_length). rewrite seq_nth by exact Hi. cbn [option_map Nat.add]. symmetry. now apply nth_error_nth'.
  - rewrite (proj2 (nth_error_None _ _)) by (now rewrite seq_length). symmetry. now apply nth_error_None.
Qed.
(** ** Errors *)
Lemma med_twice (mm : med_mesh F) : ~ distinct_types (mm_mesh mm) -> write_med mm = Err WriteError.
Proof.
  intros H. unfold write_med. cbv zeta. destruct (Nat.eqb_spec (length (map btype (hm_cells (mm_mesh mm)))) (length (nodup string_dec (map btype (hm_cells (mm_mesh mm)))))) as [E|E]; [|reflexivity].
  exfalso. apply H. unfold distinct_types. revert E. generalize (map btype (hm_cells (mm_mesh mm))). intros l E.
  apply (@NoDup_incl_NoDup _ (nodup string_dec l) l).
  - apply NoDup_nodup.
  - lia.
  - intros x Hx. now apply nodup_In in Hx.
Qed.
Lemma med_unsupported (mm : med_mesh F) : ~ Forall (fun b => In (btype b) (dkeys meshio_to_med_type)) (hm_cells (mm_mesh mm)) -> exists e, write_med mm = Err e.
Proof.
  intros H. unfold write_med. cbv zeta. destruct (negb _); [eauto|].
  destruct (mapM (med_block (hm_cd (mm_mesh mm))) (enumerate (hm_cells (mm_mesh mm)))) as [bl|e] eqn:E; [|cbn; eauto]. exfalso. apply H.
  apply mapM_Forall2 in E. rewrite <- (enumerate_snd (hm_cells (mm_mesh mm))). clear H. revert E. generalize (enumerate (hm_cells (mm_mesh mm))). intros l E.
  induction E as [|[k b] y l l' Hy _ IH]; constructor; auto. cbn [snd]. cbn [med_block] in Hy. destruct (dget (btype b) meshio_to_med_type) as [t|] eqn:Et; [|discriminate].
  apply in_dkeys. eauto.
Qed.
End Med.
