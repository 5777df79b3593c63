(** Reading and writing whole Abaqus files. *)
From Verif.Lib Require Import Base Facts Facts2 Text TextFacts Lines LinesFacts BytesFacts.
From Verif.Model Require Import Core Abaqus.
From Verif.Spec Require Import Core Blocks Abaqus.
From Verif.Proofs Require Import Gmsh Gmsh22 Blocks AbaqusLines Abaqus.
From Coq Require Import ZifyBool ZifyNat.
Local Arguments str_of_nat : simpl never.
Local Arguments str_of_Z : simpl never.
Local Arguments keyword : simpl never.
Local Arguments chunks : simpl never.

Section File.
Context {fl : floats}.
Hypothesis fok : floats_ok fl.
Hypothesis fcomma : forall v : fl, char_in "," (ffmt v) = false.
Variable include : string -> result (abq_mesh fl).
Notation reach := (reach include).

Lemma fresh_star l ls : startswith l "*" = true -> fresh (l :: ls).
Proof. auto. Qed.
Lemma fresh_esections secs rest : fresh rest -> fresh (flat_map esection_text secs ++ rest).
Proof. destruct secs; [auto|]. intros _. reflexivity. Qed.

(** ** Elements *)
Definition section_block (ids : list Z) (s : esection) : block := Block (abaqus_type (e_type s)) (map (fun e => map (pos ids) (snd e)) (e_elems s)).
Definition with_blocks (bs : list block) (maps : list (zdict nat)) (st : abq_state fl) : abq_state fl :=
  AbqState (as_points st) (as_ids st) (as_cells st ++ bs) (as_cell_ids st ++ maps) (as_psets st) (as_csets st) (as_esets st) (as_eorder st).
Lemma reach_elements ids secs : forall st rest, NoDup ids -> as_ids st = Some (id_map ids) -> fresh rest ->
  Forall esection_ok secs -> Forall (fun s => Forall (fun e => Forall (fun z => In z ids) (snd e)) (e_elems s)) secs ->
  reach st (flat_map esection_text secs ++ rest)
    (with_blocks (map (section_block ids) secs) (map (fun s => id_map (map fst (e_elems s))) secs) st) rest.
Proof.
  induction secs as [|s secs IH]; intros st rest Hn Hids Hf Hok Hin.
  - cbn. unfold with_blocks. rewrite !app_nil_r. destruct st; apply reach_refl.
  - inversion Hok as [|? ? (ct & n & H1 & H2 & H3 & H4 & H5) Hok']; subst. inversion Hin as [|? ? Hs Hin']; subst.
    cbn [flat_map]. rewrite <- app_assoc. eapply reach_trans.
    + eapply (reach_element include st s ct n ids); eauto. now apply fresh_esections.
    + match goal with |- Abaqus.reach include ?s1 _ ?s2 _ => set (S1 := s1); set (S2 := s2) end.
      assert (E : S2 = with_blocks (map (section_block ids) secs) (map (fun s => id_map (map fst (e_elems s))) secs) S1).
      { unfold S1, S2, with_blocks, with_block. cbn [as_points as_ids as_cells as_cell_ids as_psets as_csets as_esets as_eorder map].
        rewrite <- !app_assoc. cbn [app]. unfold section_block at 1, abaqus_type. now rewrite H1. }
      rewrite E. apply IH; auto.
Qed.

Theorem read_layout header nls nodes d secs :
  Forall (fun l => startswith l "**" = true) header ->
  Forall no_comma nls -> entries nls = map (fun n => str_of_Z (fst n) :: map ffmt (snd n)) nodes ->
  Forall (fun n => length (snd n) = d) nodes -> NoDup (map fst nodes) ->
  Forall esection_ok secs -> Forall (fun s => Forall (fun e => Forall (fun z => In z (map fst nodes)) (snd e)) (e_elems s)) secs ->
  exists m, read_abaqus include (header ++ "*NODE" :: map line_text nls ++ flat_map esection_text secs) = Ok m /\
    ab_points m = map snd nodes /\ ab_psets m = [] /\ ab_csets m = [] /\
    Forall2 (fun s b => btype b = abaqus_type (e_type s) /\
                        Forall2 (fun e c => Forall2 (resolves nodes) (snd e) c) (e_elems s) (bdata b)) secs (ab_cells m).
Proof.
  intros Hh Hc He Hd Hn Hs Hin. set (ids := map fst nodes) in *.
  assert (HR : reach abq_init (header ++ "*NODE" :: map line_text nls ++ flat_map esection_text secs)
     (with_blocks (map (section_block ids) secs) (map (fun s => id_map (map fst (e_elems s))) secs) (with_nodes nodes abq_init)) []).
  { eapply reach_trans; [apply reach_skips; eapply Forall_impl; [|exact Hh]; intros l Hl; now left|].
    eapply reach_trans; [eapply (reach_nodes fok fcomma include _ nls nodes d); eauto; rewrite <- (app_nil_r (flat_map _ _)); now apply fresh_esections|].
    rewrite <- (app_nil_r (flat_map _ _)). apply reach_elements; auto. exact I. }
  apply reach_end in HR. unfold read_abaqus. rewrite HR. cbn [bind]. eexists. split; [reflexivity|]. cbn [ab_points ab_psets ab_csets ab_cells with_blocks with_nodes as_points as_cells as_psets as_csets abq_init app].
  repeat (split; [reflexivity|]). clear HR Hh Hc He Hd Hs.
  induction Hin as [|s secs Hs _ IH]; cbn [map]; constructor; [|exact IH]. split; [reflexivity|]. unfold section_block. cbn [bdata].
  induction Hs as [|e l He _ IHl]; cbn [map]; constructor; [|exact IHl].
  induction He as [|z zs Hz _ IHz]; cbn [map]; constructor; [|exact IHz].
  destruct (pos_get ids z Hn Hz) as (k & _ & -> & Hk). split; [lia|]. rewrite Nat2Z.id. unfold ids in Hk. rewrite nth_error_map in Hk.
  destruct (nth_error nodes k) as [[z' xs]|]; [|discriminate]. cbn in Hk. injection Hk as ->. eauto.
Qed.

(** ** Sets *)
Lemma lefts_inl {A B} (M : list A) : lefts (B := B) (map inl M) = M.
Proof. unfold lefts. induction M as [|m M IH]; [reflexivity|]. cbn [map flat_map app]. now rewrite IH. Qed.
Lemma rights_inl {A B} (M : list A) : rights (B := B) (map inl M) = [].
Proof. unfold rights. induction M as [|m M IH]; [reflexivity|]. cbn [map flat_map app]. now rewrite IH. Qed.
Lemma read_set_ok ds M : entries ds = map (map str_of_Z) M -> Forall (fun m => m <> [] /\ Forall (fun z => 0 <= z)%Z m) M ->
  forallb int32 (concat M) = true ->
  read_set (map line_text ds) false = Ok (concat M, []) /\ Forall (fun l => startswith l "*" = false) (map line_text ds).
Proof.
  intros E HM Hi. destruct (set_lines_ok ds M E HM) as [E1 E2]. split; [|now apply int_row_no_star].
  unfold read_set. rewrite E1. cbn [bind]. rewrite lefts_inl, rights_inl, Hi. reflexivity.
Qed.

Definition with_pset (name : string) (l : list Z) (st : abq_state fl) : abq_state fl :=
  AbqState (as_points st) (as_ids st) (as_cells st) (as_cell_ids st) (dset name l (as_psets st)) (as_csets st) (as_esets st) (as_eorder st).
Lemma nset_ids ids zs (st : abq_state fl) : as_ids st = Some (id_map ids) -> NoDup ids -> Forall (fun z => In z ids) zs ->
  mapM (fun i => do m <- of_option TypeError (as_ids st); do k <- of_option KeyError (zget i m); Ok (Z.of_nat k)) zs = Ok (map (pos ids) zs).
Proof. intros -> Hn H. cbn [of_option bind]. now apply pos_all. Qed.
Lemma reach_nset st name ds M ids rest : set_name name -> entries ds = map (map str_of_Z) M ->
  Forall (fun m => m <> [] /\ Forall (fun z => 0 <= z)%Z m) M -> forallb int32 (concat M) = true ->
  NoDup ids -> as_ids st = Some (id_map ids) -> Forall (fun z => In z ids) (concat M) -> fresh rest ->
  reach st (("*NSET, NSET=" ++ name)%string :: map line_text ds ++ rest) (with_pset name (map (pos ids) (concat M)) st) rest.
Proof.
  intros Hname E HM Hi Hn Hids Hin Hf. destruct (read_set_ok ds M E HM Hi) as [Er Hd].
  apply reach_section; auto. unfold section.
  change ("*NSET, NSET=" ++ name)%string with ("*NSET" ++ String "," (String " " ("NSET" ++ String "=" name)))%string.
  assert (Ek : keyword ("*NSET" ++ String "," (String " " ("NSET" ++ String "=" name)))%string = "NSET").
  { unfold keyword. rewrite split_char_app by reflexivity. reflexivity. }
  rewrite Ek. cbn [String.eqb Ascii.eqb Bool.eqb].
  rewrite (param_one "*NSET" "NSET" name "NSET") by (first [reflexivity | assumption]). cbn [bind].
  change (upper (strip "*NSET")) with "*NSET".
  change (dmem "GENERATE" [("*NSET", None); ("NSET", Some name)]) with false.
  change (param "NSET" [("*NSET", None); ("NSET", Some name)]) with name.
  rewrite Er. cbn [bind fst]. rewrite (nset_ids ids) by auto. reflexivity.
Qed.

(** GENERATE *)
Lemma reach_nset_generate st name ds a b s ids l rest : set_name name -> entries ds = [map str_of_Z [a; b; s]] ->
  Forall (fun z => 0 <= z)%Z [a; b; s] -> forallb int32 [a; b; s] = true -> arange a (b + 1) s = Ok l ->
  NoDup ids -> as_ids st = Some (id_map ids) -> Forall (fun z => In z ids) l -> fresh rest ->
  reach st (("*NSET, NSET=" ++ name ++ ", GENERATE")%string :: map line_text ds ++ rest) (with_pset name (map (pos ids) l) st) rest.
Proof.
  intros Hname E HM Hi Ha Hn Hids Hin Hf. destruct (set_lines_ok ds [[a; b; s]] E) as [E1 E2]; [constructor; [split; [discriminate|exact HM]|constructor]|].
  apply reach_section; auto; [now apply int_row_no_star|]. unfold section.
  change ("*NSET, NSET=" ++ name ++ ", GENERATE")%string with ("*NSET" ++ String "," ((String " " ("NSET" ++ String "=" name)) ++ String "," " GENERATE"))%string.
  assert (Ek : keyword ("*NSET" ++ String "," ((String " " ("NSET" ++ String "=" name)) ++ String "," " GENERATE"))%string = "NSET").
  { unfold keyword. rewrite split_char_app by reflexivity. reflexivity. }
  rewrite Ek. cbn [String.eqb Ascii.eqb Bool.eqb].
  assert (Ep : param_map ("*NSET" ++ String "," ((String " " ("NSET" ++ String "=" name)) ++ String "," " GENERATE"))%string ["NSET"] =
     Ok [("*NSET", None); ("NSET", Some name); ("GENERATE", None)]).
  { destruct Hname as (N1 & N2 & N3). unfold param_map. rewrite split_char_app by reflexivity. rewrite split_char_app by (cbn; now rewrite N2).
    cbn [mapM split_char Ascii.eqb Bool.eqb]. change (param_word "*NSET") with (Ok ("*NSET", @None string)). cbn [bind].
    unfold param_word at 1. assert (Ec : char_in "=" (String " " ("NSET" ++ String "=" name)) = true) by reflexivity. rewrite Ec. cbn [negb].
    change (String " " ("NSET" ++ String "=" name))%string with (" NSET" ++ String "=" name)%string. rewrite split_char_app by reflexivity. rewrite split_char_single by auto. rewrite N1. cbn [bind].
    change (upper (strip " NSET")) with "NSET". change (param_word " GENERATE") with (Ok ("GENERATE", @None string)). reflexivity. }
  rewrite Ep. cbn [bind].
  change (dmem "GENERATE" [("*NSET", None); ("NSET", Some name); ("GENERATE", None)]) with true.
  change (param "NSET" [("*NSET", None); ("NSET", Some name); ("GENERATE", None)]) with name.
  unfold read_set. rewrite E1. cbn [bind]. rewrite lefts_inl. cbn [concat app]. rewrite Hi. cbn [negb]. rewrite Ha. cbn [bind fst].
  rewrite (nset_ids ids) by auto. reflexivity.
Qed.

Definition with_cset (name : string) (l : list csval) (st : abq_state fl) : abq_state fl :=
  AbqState (as_points st) (as_ids st) (as_cells st) (as_cell_ids st) (as_psets st) (dset name l (as_csets st)) (as_esets st) (as_eorder st).
Lemma reach_elset st name ds M rest : set_name name -> entries ds = map (map str_of_Z) M ->
  Forall (fun m => m <> [] /\ Forall (fun z => 0 <= z)%Z m) M -> forallb int32 (concat M) = true -> concat M <> [] -> fresh rest ->
  reach st (("*ELSET, ELSET=" ++ name)%string :: map line_text ds ++ rest) (with_cset name (id_sets (concat M) (as_cell_ids st)) st) rest.
Proof.
  intros Hname E HM Hi Hne Hf. destruct (read_set_ok ds M E HM Hi) as [Er Hd].
  apply reach_section; auto. unfold section.
  change ("*ELSET, ELSET=" ++ name)%string with ("*ELSET" ++ String "," (String " " ("ELSET" ++ String "=" name)))%string.
  assert (Ek : keyword ("*ELSET" ++ String "," (String " " ("ELSET" ++ String "=" name)))%string = "ELSET").
  { unfold keyword. rewrite split_char_app by reflexivity. reflexivity. }
  rewrite Ek. cbn [String.eqb Ascii.eqb Bool.eqb].
  rewrite (param_one "*ELSET" "ELSET" name "ELSET") by (first [reflexivity | assumption]). cbn [bind].
  change (upper (strip "*ELSET")) with "*ELSET".
  change (dmem "GENERATE" [("*ELSET", None); ("ELSET", Some name)]) with false.
  change (param "ELSET" [("*ELSET", None); ("ELSET", Some name)]) with name.
  rewrite Er. cbn [bind fst snd]. destruct (concat M) eqn:Ec; [congruence|]. rewrite <- Ec. reflexivity.
Qed.

(** Any number of set sections *)
Definition sname (s : string * (list data_line * list (list Z))) := fst s.
Definition sids (s : string * (list data_line * list (list Z))) : list Z := concat (snd (snd s)).
Lemma fresh_sets key S rest : fresh rest -> fresh (flat_map (set_section key) S ++ rest).
Proof. destruct S as [|p S]; [auto|]. intros _. unfold set_section, startswith. cbn. now destruct (key ++ _)%string. Qed.
Lemma ok_int32 M : Forall (fun r => r <> [] /\ Forall (fun z => 0 <= z <= 2147483647)%Z r) M ->
  Forall (fun m => m <> [] /\ Forall (fun z => 0 <= z)%Z m) M /\ forallb int32 (concat M) = true.
Proof.
  intros H. split.
  - eapply Forall_impl; [|exact H]. intros r [H1 H2]. split; auto. eapply Forall_impl; [|exact H2]. cbn. lia.
  - apply forallb_forall. intros z Hz. apply in_concat in Hz. destruct Hz as (r & Hr & Hz). rewrite Forall_forall in H. destruct (H _ Hr) as [_ H2]. rewrite Forall_forall in H2. specialize (H2 _ Hz). cbn beta in H2. unfold int32. lia.
Qed.
Lemma reach_nset_list ids S : forall st rest, NoDup ids -> as_ids st = Some (id_map ids) -> Forall set_section_ok S ->
  Forall (fun s => Forall (fun z => In z ids) (sids s)) S -> fresh rest ->
  reach st (flat_map (set_section "NSET") S ++ rest)
    (AbqState (as_points st) (as_ids st) (as_cells st) (as_cell_ids st) (fold_left (fun d s => dset (sname s) (map (pos ids) (sids s)) d) S (as_psets st)) (as_csets st) (as_esets st) (as_eorder st)) rest.
Proof.
  induction S as [|[k [ds M]] S IH]; intros st rest Hn Hids H Hin Hf; [destruct st; apply reach_refl|]. inversion H as [|? ? (N1 & N2 & N3) H']; subst. inversion Hin as [|? ? I1 Hin']; subst.
  cbn [flat_map]. rewrite <- app_assoc. unfold set_section at 1. cbn [fst snd sids] in *. destruct (ok_int32 M N3) as [M1 M2].
  cbn [app]. eapply reach_trans; [apply (reach_nset st k ds M ids); auto; now apply fresh_sets|].
  apply (IH (with_pset k (map (pos ids) (concat M)) st)); auto.
Qed.
Lemma reach_elset_list S : forall st rest, Forall set_section_ok S -> Forall (fun s => sids s <> []) S -> fresh rest ->
  reach st (flat_map (set_section "ELSET") S ++ rest)
    (AbqState (as_points st) (as_ids st) (as_cells st) (as_cell_ids st) (as_psets st) (fold_left (fun d s => dset (sname s) (id_sets (sids s) (as_cell_ids st)) d) S (as_csets st)) (as_esets st) (as_eorder st)) rest.
Proof.
  induction S as [|[k [ds M]] S IH]; intros st rest H Hne Hf; [destruct st; apply reach_refl|]. inversion H as [|? ? (N1 & N2 & N3) H']; subst. inversion Hne as [|? ? I1 Hne']; subst.
  cbn [flat_map]. rewrite <- app_assoc. unfold set_section at 1. cbn [fst snd sids] in *. destruct (ok_int32 M N3) as [M1 M2].
  cbn [app]. eapply reach_trans; [apply (reach_elset st k ds M); auto; now apply fresh_sets|].
  apply (IH (with_cset k (id_sets (concat M) (as_cell_ids st)) st)); auto.
Qed.
Lemma fold_dset_list {A B} (f : A -> string) (g : A -> B) (S : list A) : forall d, NoDup (map f S) -> (forall k, In k (map f S) -> dget k d = None) ->
  fold_left (fun d s => dset (f s) (g s) d) S d = d ++ map (fun s => (f s, g s)) S.
Proof.
  induction S as [|x S IH]; intros d Hn Hd; [cbn; now rewrite app_nil_r|]. cbn [fold_left map]. cbn [map] in Hn. inversion Hn; subst.
  assert (E : dset (f x) (g x) d = d ++ [(f x, g x)]).
  { assert (E : dget (f x) d = None) by (apply Hd; now left). clear -E. induction d as [|[k' v'] d IHd]; [reflexivity|]. cbn [dget dset app] in *. destruct (String.eqb (f x) k'); [discriminate|]. now rewrite IHd. }
  rewrite E, IH; [now rewrite <- app_assoc|auto|]. intros k' Hk'. rewrite <- E. rewrite dget_dset_other; [apply Hd; now right|]. intros ->. contradiction.
Qed.
Lemma id_sets_members ids s : NoDup (map fst (e_elems s)) ->
  members ids s (flat_map (fun i => match zget i (id_map (map fst (e_elems s))) with Some k => [Z.of_nat k] | None => [] end) ids).
Proof.
  intros Hn. unfold members. induction ids as [|z ids IH]; [constructor|]. cbn [filter flat_map].
  destruct (existsb (Z.eqb z) (map fst (e_elems s))) eqn:E.
  - apply existsb_exists in E. destruct E as (z' & Hin & E). apply Z.eqb_eq in E. subst z'.
    destruct (pos_get _ z Hn Hin) as (k & -> & _ & Hk). cbn [app]. constructor; [|exact IH]. split; [lia|]. rewrite Nat2Z.id. rewrite nth_error_map in Hk.
    destruct (nth_error (e_elems s) k) as [[z' c]|]; [|discriminate]. cbn in Hk. injection Hk as ->. eauto.
  - rewrite id_map_none; [exact IH|]. intros Hin. assert (existsb (Z.eqb z) (map fst (e_elems s)) = true); [|congruence]. apply existsb_exists. exists z. split; auto. apply Z.eqb_refl.
Qed.

Theorem read_sets nls (nodes : list (Z * list fl)) d secs csets psets :
  Forall no_comma nls -> entries nls = map (fun n => str_of_Z (fst n) :: map ffmt (snd n)) nodes ->
  Forall (fun n => length (snd n) = d) nodes -> NoDup (map fst nodes) ->
  Forall esection_ok secs -> Forall (fun s => Forall (fun e => Forall (fun z => In z (map fst nodes)) (snd e)) (e_elems s)) secs ->
  Forall (fun s => NoDup (map fst (e_elems s))) secs ->
  Forall set_section_ok csets -> NoDup (map fst csets) -> Forall (fun s => sids s <> []) csets ->
  Forall set_section_ok psets -> NoDup (map fst psets) -> Forall (fun s => Forall (fun z => In z (map fst nodes)) (sids s)) psets ->
  exists m, read_abaqus include ("*NODE" :: map line_text nls ++ flat_map esection_text secs ++ flat_map (set_section "ELSET") csets ++ flat_map (set_section "NSET") psets) = Ok m /\
    Forall2 (fun s r => fst r = fst s /\ Forall2 (resolves nodes) (sids s) (snd r)) psets (ab_psets m) /\
    Forall2 (fun s r => fst r = fst s /\ exists parts, snd r = map Idx parts /\ Forall2 (members (sids s)) secs parts) csets (ab_csets m).
Proof.
  intros Hc He Hd Hn Hs Hin Hne C1 C2 C3 P1 P2 P3. set (ids := map fst nodes) in *.
  assert (HR : exists cells maps, reach abq_init ("*NODE" :: map line_text nls ++ flat_map esection_text secs ++ flat_map (set_section "ELSET") csets ++ flat_map (set_section "NSET") psets)
     (AbqState (map snd nodes) (Some (id_map ids)) cells maps (map (fun s => (sname s, map (pos ids) (sids s))) psets) (map (fun s => (sname s, id_sets (sids s) (map (fun s => id_map (map fst (e_elems s))) secs))) csets) [] []) []).
  { rewrite <- (app_nil_r (flat_map (set_section "NSET") psets)).
    assert (F1 : fresh (flat_map (set_section "NSET") psets ++ [])) by (apply fresh_sets; exact I).
    eexists. eexists.
    eapply reach_trans; [eapply (reach_nodes fok fcomma include _ nls nodes d); eauto; apply fresh_esections, fresh_sets; exact F1|].
    eapply reach_trans; [apply (reach_elements ids); auto; now apply fresh_sets|].
    eapply reach_trans; [apply reach_elset_list; auto|].
    match goal with |- Abaqus.reach include ?s _ ?t _ => set (S1 := s); set (S2 := t) end.
    assert (E : S2 = AbqState (as_points S1) (as_ids S1) (as_cells S1) (as_cell_ids S1) (fold_left (fun d s => dset (sname s) (map (pos ids) (sids s)) d) psets (as_psets S1)) (as_csets S1) (as_esets S1) (as_eorder S1)).
    { unfold S1. cbn [as_points as_ids as_cells as_cell_ids as_psets as_csets as_esets as_eorder with_blocks with_nodes abq_init app]. rewrite !fold_dset_list by auto. cbn [app]. unfold S2. reflexivity. }
    rewrite E. apply reach_nset_list; auto. exact I. }
  destruct HR as (cells & maps & HR). apply reach_end in HR. unfold read_abaqus. rewrite HR. cbn [bind]. eexists. split; [reflexivity|]. cbn [ab_points ab_psets ab_csets ab_cells as_psets as_csets]. split.
  - clear - Hn P3. induction P3 as [|s l Hz _ IH]; cbn [map]; constructor; [|exact IH]. split; [reflexivity|]. cbn [snd].
    induction Hz as [|z zs Hz _ IHz]; cbn [map]; constructor; [|exact IHz].
    destruct (pos_get ids z Hn Hz) as (k & _ & -> & Hk). split; [lia|]. rewrite Nat2Z.id. unfold ids in Hk. rewrite nth_error_map in Hk.
    destruct (nth_error nodes k) as [[z' xs]|]; [|discriminate]. cbn in Hk. injection Hk as ->. eauto.
  - clear - Hne. induction csets as [|s l IH]; cbn [map]; constructor; [|exact IH]. split; [reflexivity|]. cbn [snd]. unfold id_sets. rewrite map_map. eexists. split; [rewrite <- (map_map (fun s0 => flat_map (fun i => match zget i (id_map (map fst (e_elems s0))) with Some k => [Z.of_nat k] | None => [] end) (sids s)) Idx); reflexivity|].
    clear IH. induction Hne as [|e l' H _ IHe]; cbn [map]; constructor; [|exact IHe]. now apply id_sets_members.
Qed.

Theorem read_generate nls (nodes : list (Z * list fl)) d name ds a b s :
  Forall no_comma nls -> entries nls = map (fun n => str_of_Z (fst n) :: map ffmt (snd n)) nodes ->
  Forall (fun n => length (snd n) = d) nodes -> NoDup (map fst nodes) ->
  set_name name -> entries ds = [map str_of_Z [a; b; s]] -> (0 <= a <= 2147483647)%Z -> (0 <= b <= 2147483647)%Z -> (0 < s <= 2147483647)%Z ->
  (forall k, (0 <= k)%Z -> (a + k * s <= b)%Z -> In (a + k * s)%Z (map fst nodes)) ->
  exists m n l, read_abaqus include ("*NODE" :: map line_text nls ++ ("*NSET, NSET=" ++ name ++ ", GENERATE")%string :: map line_text ds) = Ok m /\
    ab_psets m = [(name, l)] /\
    Forall2 (resolves nodes) (map (fun k => a + Z.of_nat k * s)%Z (seq 0 n)) l /\ forall k : nat, k < n <-> (a + Z.of_nat k * s <= b)%Z.
Proof.
  intros Hc He Hd Hn Hname Eds Ha Hb Hs Hin. set (ids := map fst nodes) in *.
  set (n := Z.to_nat (- ((a - (b + 1)) / s))). 
  assert (Hk : forall k : nat, k < n <-> (a + Z.of_nat k * s <= b)%Z).
  { intros k. unfold n. split; intros H.
    - assert (Hq : (Z.of_nat k < - ((a - (b + 1)) / s))%Z) by lia. pose proof (Z.mul_div_le (a - (b + 1)) s ltac:(lia)). nia.
    - assert (Z.of_nat k < - ((a - (b + 1)) / s))%Z; [|lia]. assert ((a - (b + 1)) / s < - Z.of_nat k)%Z; [|lia]. apply Z.div_lt_upper_bound; [lia|]. nia. }
  set (l := map (fun k => a + Z.of_nat k * s)%Z (seq 0 n)).
  assert (Hl : Forall (fun z => In z ids) l).
  { apply Forall_forall. intros z Hz. apply in_map_iff in Hz. destruct Hz as (k & <- & Hks). apply in_seq in Hks. apply Hin; [lia|]. apply Hk. lia. }
  assert (HR : reach abq_init ("*NODE" :: map line_text nls ++ ("*NSET, NSET=" ++ name ++ ", GENERATE")%string :: map line_text ds) (with_pset name (map (pos ids) l) (with_nodes nodes abq_init)) []).
  { eapply reach_trans; [eapply (reach_nodes fok fcomma include _ nls nodes d); eauto; reflexivity|].
    rewrite <- (app_nil_r (map line_text ds)). apply (reach_nset_generate _ name ds a b s ids l); auto.
    - repeat constructor; lia.
    - cbn [forallb]. unfold int32. lia.
    - unfold arange. destruct (Z.eqb_spec s 0); [lia|]. reflexivity.
    - exact I. }
  apply reach_end in HR. unfold read_abaqus. rewrite HR. cbn [bind]. eexists. exists n. eexists. split; [reflexivity|]. cbn [ab_psets with_pset as_psets with_nodes abq_init dset]. split; [reflexivity|]. split; [|exact Hk].
  clear - Hn Hl. fold l. induction Hl as [|z zs Hz _ IHz]; cbn [map]; constructor; [|exact IHz].
  destruct (pos_get ids z Hn Hz) as (k & _ & -> & Hk). split; [lia|]. rewrite Nat2Z.id. unfold ids in Hk. rewrite nth_error_map in Hk.
  destruct (nth_error nodes k) as [[z' xs]|]; [|discriminate]. cbn in Hk. injection Hk as ->. eauto.
Qed.

(** ** The written lines as data lines *)
Lemma plain_row comma es : line_text (Row (fun _ => 0) comma es) = (join "," es ++ (if comma then "," else ""))%string.
Proof.
  unfold line_text. do 2 f_equal. cbn [spaces repeat String.concat append].
  rewrite <- (enumerate_snd es) at 2. apply map_ext. reflexivity.
Qed.
Lemma comma_lines_data L : exists ds, comma_lines (map (fun c => join "," (map str_of_Z c)) L) = map line_text ds /\ entries ds = map (map str_of_Z) L.
Proof.
  induction L as [|c L IH].
  - exists [Blank 0]. auto.
  - destruct L as [|c2 L].
    + exists [Row (fun _ => 0) false (map str_of_Z c)]. cbn [map comma_lines]. rewrite plain_row, str_app_nil_r. auto.
    + destruct IH as (ds & E1 & E2). exists (Row (fun _ => 0) true (map str_of_Z c) :: ds). cbn [map comma_lines] in *. rewrite E1, plain_row. split; [reflexivity|].
      rewrite entries_cons. cbn [line_entries app]. now rewrite E2.
Qed.
Lemma chunks_nonempty {A} n (l : list A) : 0 < n -> Forall (fun c => c <> []) (chunks n l).
Proof.
  intros Hn. unfold chunks. generalize (length l). intros f. revert l; induction f as [|f IH]; intros l; [constructor|]. destruct l as [|x l]; [constructor|].
  cbn [chunks_fuel]. constructor; [|apply IH]. destruct n; [lia|discriminate].
Qed.
Lemma chunks_all {A} (P : A -> Prop) n (l : list A) : Forall P l -> Forall (Forall P) (chunks n l).
Proof. intros H. unfold chunks. now apply chunks_fuel_Forall. Qed.
Lemma id_lines_data ids : Forall (fun z => 0 <= z)%Z ids -> exists ds M, id_lines ids = map line_text ds /\ entries ds = map (map str_of_Z) M /\
  concat M = ids /\ Forall (fun m => m <> [] /\ Forall (fun z => 0 <= z)%Z m) M.
Proof.
  intros H. destruct (comma_lines_data (chunks 8 ids)) as (ds & E1 & E2). exists ds, (chunks 8 ids). split; [exact E1|]. split; [exact E2|].
  split; [apply chunks_back; lia|]. pose proof (chunks_nonempty 8 ids ltac:(lia)) as G1. pose proof (chunks_all _ 8 ids H) as G2.
  rewrite Forall_forall in *. intros m Hm. split; auto.
Qed.
Lemma space_row e es : join ", " (e :: es) = line_text (Row (fun k => if Nat.eqb k 0 then 0 else 1) false (e :: es)).
Proof.
  unfold line_text, enumerate. cbn [length seq combine map fst snd Nat.eqb]. rewrite str_app_nil_r. cbn [spaces repeat String.concat append].
  assert (G : forall es k, 0 < k -> map (fun ke : nat * string => (spaces (if Nat.eqb (fst ke) 0 then 0 else 1) ++ snd ke)%string) (combine (seq k (length es)) es) = map (fun x => String " " x) es).
  { clear. induction es as [|x es IH]; intros k Hk; [reflexivity|]. cbn [length seq combine map fst snd]. destruct k; [lia|]. cbn [Nat.eqb]. f_equal. apply IH. lia. }
  rewrite G by lia. clear G. revert e; induction es as [|x es IH]; intros e; [reflexivity|]. rewrite join_cons, IH. cbn [map]. rewrite join_cons. cbn [append]. 
  destruct es; [reflexivity|]. cbn [map]. rewrite !join_cons. reflexivity.
Qed.

(** ** Writing *)
Fixpoint numbered (eid : Z) (rows : list cell) : list (Z * list Z) :=
  match rows with [] => [] | r :: rows' => ((eid + 1)%Z, map (fun i => i + 1)%Z r) :: numbered (eid + 1) rows' end.
Definition elem_rows (es : list (Z * list Z)) : list data_line :=
  map (fun e => Row (fun _ => 0) false (map str_of_Z (fst e :: snd e))) es.
Lemma elem_lines_data rows : forall eid, Forall (fun r => r <> []) rows -> elem_lines eid rows = map line_text (elem_rows (numbered eid rows)).
Proof.
  induction rows as [|r rows IH]; intros eid H; [reflexivity|]. inversion H; subst. cbn [elem_lines numbered elem_rows map fst snd]. rewrite plain_row, str_app_nil_r.
  f_equal; [|now apply IH]. rewrite map_map. destruct r as [|x r]; [congruence|]. cbn [map]. now rewrite join_cons.
Qed.
Lemma elem_rows_entries es : entries (elem_rows es) = map (fun e => map str_of_Z (fst e :: snd e)) es.
Proof. induction es as [|e es IH]; [reflexivity|]. cbn [elem_rows map]. rewrite entries_cons. cbn [line_entries app map]. f_equal. exact IH. Qed.
Lemma tables_inverse ct an : dget ct meshio_to_abaqus_type = Some an -> dget an abaqus_to_meshio_type = Some ct.
Proof.
  intros H. apply dget_In in H.
  assert (G : forallb (fun kv => match dget (snd kv) abaqus_to_meshio_type with Some c => String.eqb c (fst kv) | None => false end) meshio_to_abaqus_type = true) by (vm_compute; reflexivity).
  rewrite forallb_forall in G. specialize (G _ H). cbn [fst snd] in G. destruct (dget an abaqus_to_meshio_type); [|discriminate]. apply String.eqb_eq in G. now subst.
Qed.
Lemma nodes_positive ct an n : dget ct meshio_to_abaqus_type = Some an -> dget ct num_nodes_per_cell = Some n -> 0 < n.
Proof.
  intros H. apply dget_In in H.
  assert (G : forallb (fun kv => match dget (fst kv) num_nodes_per_cell with Some c => Nat.ltb 0 c | None => true end) meshio_to_abaqus_type = true) by (vm_compute; reflexivity).
  rewrite forallb_forall in G. specialize (G _ H). cbn [fst snd] in G. intros E. rewrite E in G. now apply Nat.ltb_lt.
Qed.
Definition abq_name (b : block) : string := match dget (btype b) meshio_to_abaqus_type with Some an => an | None => "" end.
Fixpoint sections_of (eid : Z) (bs : list block) : list esection :=
  match bs with
  | [] => []
  | b :: bs' => ESection (abq_name b) (elem_rows (numbered eid (bdata b))) (numbered eid (bdata b)) :: sections_of (eid + Z.of_nat (blen b)) bs'
  end.
Lemma elem_sections_data npoints bs : forall eid, Forall (abaqus_cells npoints) bs ->
  elem_sections true eid bs = Ok (flat_map esection_text (sections_of eid bs)).
Proof.
  induction bs as [|b bs IH]; intros eid H; [reflexivity|]. inversion H as [|? ? (an & n & E1 & E2 & E3) H']; subst.
  cbn [elem_sections sections_of flat_map]. rewrite E1. cbn [of_option bind]. rewrite IH by auto. cbn [bind]. f_equal. unfold esection_text. cbn [e_type e_lines app].
  unfold abq_name. rewrite E1. f_equal. f_equal. apply elem_lines_data.
  pose proof (nodes_positive _ _ _ E1 E2). eapply Forall_impl; [|exact E3]. intros c [Hc _] ->. cbn in Hc. lia.
Qed.
Lemma numbered_snd rows : forall eid, map snd (numbered eid rows) = map (map (fun i => i + 1)%Z) rows.
Proof. induction rows as [|r rows IH]; intros eid; [reflexivity|]. cbn [numbered map snd]. now rewrite IH. Qed.
Definition id_range (eid : Z) (n : nat) : list Z := map (fun k => eid + 1 + Z.of_nat k)%Z (seq 0 n).
Lemma id_range_S eid n : id_range eid (S n) = (eid + 1)%Z :: id_range (eid + 1) n.
Proof. unfold id_range. cbn [seq map]. rewrite <- seq_shift, map_map. f_equal; [lia|]. apply map_ext. intros. lia. Qed.
Lemma numbered_fst rows : forall eid, map fst (numbered eid rows) = id_range eid (length rows).
Proof. induction rows as [|r rows IH]; intros eid; [reflexivity|]. cbn [numbered map fst length]. now rewrite IH, id_range_S. Qed.
Lemma id_range_In eid n z : In z (id_range eid n) <-> (eid < z <= eid + Z.of_nat n)%Z.
Proof.
  unfold id_range. rewrite in_map_iff. split.
  - intros (k & <- & Hk). apply in_seq in Hk. lia.
  - intros H. exists (Z.to_nat (z - eid - 1)). rewrite in_seq. lia.
Qed.
Lemma id_range_nodup eid n : NoDup (id_range eid n).
Proof. unfold id_range. apply FinFun.Injective_map_NoDup; [intros a b; lia|apply seq_NoDup]. Qed.
Lemma id_range_nth eid n k : k < n -> nth_error (id_range eid n) k = Some (eid + 1 + Z.of_nat k)%Z.
Proof. intros H. unfold id_range. rewrite nth_error_map, nth_error_nth' with (d := 0) by (rewrite seq_length; lia). cbn. rewrite seq_nth by lia. reflexivity. Qed.
Lemma id_range_pos eid n i : (0 <= i < Z.of_nat n)%Z -> zget (eid + 1 + i)%Z (id_map (id_range eid n)) = Some (Z.to_nat i) /\ pos (id_range eid n) (eid + 1 + i)%Z = i.
Proof.
  intros H. destruct (pos_get (id_range eid n) (eid + 1 + i)%Z) as (k & E1 & E2 & E3); [apply id_range_nodup|apply id_range_In; lia|].
  assert (k < n). { assert (k < length (id_range eid n)) by (apply nth_error_Some; congruence). unfold id_range in *. rewrite map_length, seq_length in *. lia. }
  rewrite id_range_nth in E3 by auto. injection E3 as E3. rewrite E1, E2. split; [f_equal; lia|lia].
Qed.
Lemma id_range_out eid n z : ~ (eid < z <= eid + Z.of_nat n)%Z -> zget z (id_map (id_range eid n)) = None.
Proof. intros H. apply id_map_none. now rewrite id_range_In. Qed.

Lemma block_back eid b n npoints : Forall (fun c => length c = n /\ Forall (fun i => 0 <= i < Z.of_nat npoints)%Z c) (bdata b) ->
  map (fun e => map (pos (id_range 0 npoints)) (snd e)) (numbered eid (bdata b)) = bdata b.
Proof.
  intros H. rewrite <- (map_map snd (map (pos (id_range 0 npoints)))), numbered_snd, map_map. apply map_id_in. intros c Hc. rewrite Forall_forall in H. destruct (H _ Hc) as [_ Hr].
  rewrite map_map. apply map_id_in. intros i Hi. rewrite Forall_forall in Hr. specialize (Hr _ Hi). cbn beta in Hr.
  replace (i + 1)%Z with (0 + 1 + i)%Z by lia. now apply id_range_pos.
Qed.
Fixpoint id_maps (eid : Z) (bs : list block) : list (zdict nat) :=
  match bs with [] => [] | b :: bs' => id_map (id_range eid (blen b)) :: id_maps (eid + Z.of_nat (blen b)) bs' end.
Lemma sections_of_ok npoints bs : forall eid, Forall (abaqus_cells npoints) bs ->
  Forall esection_ok (sections_of eid bs) /\
  Forall (fun s => Forall (fun e => Forall (fun z => In z (id_range 0 npoints)) (snd e)) (e_elems s)) (sections_of eid bs) /\
  map (section_block (id_range 0 npoints)) (sections_of eid bs) = bs /\
  map (fun s => id_map (map fst (e_elems s))) (sections_of eid bs) = id_maps eid bs.
Proof.
  induction bs as [|b bs IH]; intros eid H; [repeat split; constructor|]. inversion H as [|? ? (an & n & E1 & E2 & E3) H']; subst.
  destruct (IH (eid + Z.of_nat (blen b))%Z H') as (A1 & A2 & A3 & A4). cbn [sections_of map id_maps].
  split; [constructor; [|exact A1]|split; [constructor; [|exact A2]|split]].
  - exists (btype b), n. unfold abq_name. rewrite E1. cbn [e_type e_elems e_lines]. split; [now apply tables_inverse|]. split; [auto|]. split; [|split].
    + apply Forall_forall. intros e He. apply (in_map snd) in He. rewrite numbered_snd, in_map_iff in He. destruct He as (c & <- & Hc). rewrite map_length.
      rewrite Forall_forall in E3. now apply E3.
    + apply Forall_forall. intros d Hd. unfold elem_rows in Hd. apply in_map_iff in Hd. destruct Hd as (e & <- & _). discriminate.
    + rewrite elem_rows_entries. now rewrite flat_map_concat_map.
  - cbn [e_elems]. apply Forall_forall. intros e He. apply (in_map snd) in He. rewrite numbered_snd, in_map_iff in He. destruct He as (c & <- & Hc).
    rewrite Forall_forall in E3. destruct (E3 _ Hc) as [_ Hr]. apply Forall_forall. intros z Hz. apply in_map_iff in Hz. destruct Hz as (i & <- & Hi). rewrite Forall_forall in Hr. specialize (Hr _ Hi). cbn in Hr. apply id_range_In. lia.
  - f_equal; [|exact A3]. unfold section_block. cbn [e_type e_elems]. rewrite (block_back eid b n) by auto. unfold abaqus_type, abq_name. rewrite E1, (tables_inverse _ _ E1). now destruct b.
  - f_equal; [|exact A4]. cbn [e_elems]. now rewrite numbered_fst.
Qed.

(** ** The set sections of a file *)
Fixpoint csecs (off : Z) (bs : list block) (cs : dict (list (list Z))) : list (string * list Z) :=
  match bs with
  | [] => []
  | b :: bs' => flat_map (fun kv => match hd [] (snd kv) with [] => [] | p => [(fst kv, map (fun i => i + 1 + off)%Z p)] end) cs ++
                csecs (off + Z.of_nat (blen b)) bs' (map (fun kv => (fst kv, tl (snd kv))) cs)
  end.
Definition elset_text (s : string * list Z) : list string := ("*ELSET, ELSET=" ++ fst s)%string :: id_lines (snd s).
Lemma skipn_tl {A} n : forall l : list A, tl (skipn n l) = skipn (S n) l.
Proof. induction n as [|n IH]; intros [|x l]; auto. apply (IH l). Qed.
Lemma skipn_hd {A} (d : A) n : forall l x, nth_error l n = Some x -> hd d (skipn n l) = x.
Proof. induction n as [|n IH]; intros [|y l] x; cbn; try discriminate; [congruence|]. apply IH. Qed.
Lemma elset_sections_data csets bs : forall ic off, Forall (fun kv => length (snd kv) = ic + length bs) csets ->
  elset_sections csets ic off bs = Ok (flat_map elset_text (csecs off bs (map (fun kv => (fst kv, skipn ic (snd kv))) csets))).
Proof.
  induction bs as [|b bs IH]; intros ic off H; [reflexivity|]. cbn [elset_sections csecs].
  assert (E : elset_part csets ic off = Ok (flat_map elset_text (flat_map (fun kv => match hd [] (snd kv) with [] => [] | p => [(fst kv, map (fun i => i + 1 + off)%Z p)] end) (map (fun kv => (fst kv, skipn ic (snd kv))) csets)))).
  { clear IH. unfold elset_part. 
    assert (G : exists l, mapM (fun kv : string * list (list Z) => do v <- of_option IndexError (nth_error (snd kv) ic);
                          Ok (match v with [] => [] | _ => ("*ELSET, ELSET=" ++ fst kv)%string :: id_lines (map (fun i => i + 1 + off)%Z v) end)) csets = Ok l /\
       concat l = flat_map elset_text (flat_map (fun kv => match hd [] (snd kv) with [] => [] | p => [(fst kv, map (fun i => i + 1 + off)%Z p)] end) (map (fun kv => (fst kv, skipn ic (snd kv))) csets))).
    { induction H as [|[k v] csets Hv H IH]; [exists []; auto|]. destruct IH as (l & E1 & E2). cbn [mapM map flat_map snd fst] in *.
      destruct (nth_error v ic) as [p|] eqn:Ep; [|apply nth_error_None in Ep; cbn in Hv; lia]. cbn [of_option bind]. rewrite E1. cbn [bind]. eexists. split; [reflexivity|].
      cbn [concat]. rewrite E2, flat_map_app. f_equal. rewrite (skipn_hd _ _ _ _ Ep). destruct p; [reflexivity|]. cbn [flat_map]. now rewrite app_nil_r. }
    destruct G as (l & -> & E2). cbn [bind]. now rewrite E2. }
  rewrite E. cbn [bind]. rewrite IH by (eapply Forall_impl; [|exact H]; cbn; intros; lia). cbn [bind]. f_equal. rewrite flat_map_app. do 3 f_equal. rewrite map_map. apply map_ext. intros [k v]. cbn [fst snd]. f_equal. symmetry. apply skipn_tl.
Qed.

Definition set_into (maps : list (zdict nat)) (d : dict (list csval)) (s : string * list Z) : dict (list csval) := dset (fst s) (id_sets (snd s) maps) d.
Lemma fresh_elsets S rest : fresh rest -> fresh (flat_map elset_text S ++ rest).
Proof. destruct S; [auto|]. intros _. reflexivity. Qed.
Lemma reach_elsets S : forall st rest, Forall (fun s => set_name (fst s) /\ snd s <> [] /\ Forall (fun z => 0 <= z <= 2147483647)%Z (snd s)) S -> fresh rest ->
  reach st (flat_map elset_text S ++ rest)
    (AbqState (as_points st) (as_ids st) (as_cells st) (as_cell_ids st) (as_psets st) (fold_left (set_into (as_cell_ids st)) S (as_csets st)) (as_esets st) (as_eorder st)) rest.
Proof.
  induction S as [|[k ids] S IH]; intros st rest H Hf; [destruct st; apply reach_refl|]. inversion H as [|? ? (N1 & N2 & N3) H']; subst.
  cbn [flat_map]. rewrite <- app_assoc. unfold elset_text at 1. cbn [fst snd] in *.
  destruct (id_lines_data ids) as (ds & M & E1 & E2 & E3 & E4); [eapply Forall_impl; [|exact N3]; cbn; intros; lia|].
  rewrite E1. cbn [app]. eapply reach_trans; [apply (reach_elset st k ds M); auto|].
  - rewrite E3. apply forallb_forall. intros z Hz. rewrite Forall_forall in N3. specialize (N3 _ Hz). cbn beta in N3. unfold int32. lia.
  - now rewrite E3.
  - now apply fresh_elsets.
  - rewrite E3. apply (IH (with_cset k (id_sets ids (as_cell_ids st)) st)); auto.
Qed.
Definition nset_text (s : string * list Z) : list string := ("*NSET, NSET=" ++ fst s)%string :: id_lines (map (fun i => i + 1)%Z (snd s)).
Lemma fresh_nsets S rest : fresh rest -> fresh (flat_map nset_text S ++ rest).
Proof. destruct S; [auto|]. intros _. reflexivity. Qed.
Lemma reach_nsets n S : forall st rest, (Z.of_nat n <= 2147483647)%Z -> as_ids st = Some (id_map (id_range 0 n)) ->
  Forall (fun s => set_name (fst s) /\ Forall (fun i => 0 <= i < Z.of_nat n)%Z (snd s)) S -> fresh rest ->
  reach st (flat_map nset_text S ++ rest)
    (AbqState (as_points st) (as_ids st) (as_cells st) (as_cell_ids st) (fold_left (fun d s => dset (fst s) (snd s) d) S (as_psets st)) (as_csets st) (as_esets st) (as_eorder st)) rest.
Proof.
  induction S as [|[k is] S IH]; intros st rest Hn Hids H Hf; [destruct st; apply reach_refl|]. inversion H as [|? ? (N1 & N3) H']; subst.
  cbn [flat_map]. rewrite <- app_assoc. unfold nset_text at 1. cbn [fst snd] in *. rewrite Forall_forall in N3.
  destruct (id_lines_data (map (fun i => i + 1)%Z is)) as (ds & M & E1 & E2 & E3 & E4); [apply Forall_forall; intros z Hz; apply in_map_iff in Hz; destruct Hz as (i & <- & Hi); specialize (N3 _ Hi); cbn in N3; lia|].
  rewrite E1. cbn [app]. eapply reach_trans; [apply (reach_nset st k ds M (id_range 0 n)); auto|].
  - rewrite E3. apply forallb_forall. intros z Hz. apply in_map_iff in Hz; destruct Hz as (i & <- & Hi); specialize (N3 _ Hi); cbn beta in N3. unfold int32. lia.
  - apply id_range_nodup.
  - rewrite E3. apply Forall_forall. intros z Hz. apply in_map_iff in Hz; destruct Hz as (i & <- & Hi); specialize (N3 _ Hi); cbn beta in N3. apply id_range_In. lia.
  - now apply fresh_nsets.
  - rewrite E3, map_map.
    assert (E : map (fun x => pos (id_range 0 n) (x + 1)%Z) is = is).
    { apply map_id_in. intros i Hi. specialize (N3 _ Hi). cbn beta in N3. replace (i + 1)%Z with (0 + 1 + i)%Z by lia. now apply id_range_pos. }
    rewrite E. apply (IH (with_pset k is st)); auto.
Qed.

(** Which sets result. *)
Fixpoint psecs (off : Z) (bs : list block) (v : list (list Z)) : list (list Z) :=
  match bs, v with
  | b :: bs', p :: v' => (match p with [] => [] | _ => [map (fun i => i + 1 + off)%Z p] end) ++ psecs (off + Z.of_nat (blen b)) bs' v'
  | _, _ => []
  end.
Definition last_opt {A} (l : list A) : option A := match rev l with [] => None | x :: _ => Some x end.
Lemma last_opt_app {A} (a b : list A) : last_opt (a ++ b) = match last_opt b with Some x => Some x | None => last_opt a end.
Proof. unfold last_opt. rewrite rev_app_distr. destruct (rev b); reflexivity. Qed.
Lemma last_opt_cons {A} (x : A) l : last_opt (x :: l) = match last_opt l with Some y => Some y | None => Some x end.
Proof. apply (last_opt_app [x] l). Qed.
Lemma fold_set_dget maps k S : forall d, dget k (fold_left (set_into maps) S d) =
  match last_opt (filter (fun s => String.eqb (fst s) k) S) with Some s => Some (id_sets (snd s) maps) | None => dget k d end.
Proof.
  induction S as [|[k' ids] S IH]; intros d; [reflexivity|]. cbn [fold_left filter fst]. rewrite IH. unfold set_into at 1. cbn [fst snd].
  destruct (String.eqb k' k) eqn:E.
  - apply String.eqb_eq in E. subst. rewrite last_opt_cons, dget_dset_same. destruct (last_opt _); reflexivity.
  - apply String.eqb_neq in E. now rewrite dget_dset_other by auto.
Qed.
Lemma csecs_key k bs : forall off cs, NoDup (dkeys cs) ->
  filter (fun s => String.eqb (fst s) k) (csecs off bs cs) = match dget k cs with Some v => map (pair k) (psecs off bs v) | None => [] end.
Proof.
  induction bs as [|b bs IH]; intros off cs Hn; [cbn [csecs filter]; destruct (dget k cs); reflexivity|].
  cbn [csecs]. rewrite filter_app, IH by (unfold dkeys; rewrite map_map; exact Hn).
  assert (G1 : filter (fun s => String.eqb (fst s) k) (flat_map (fun kv => match hd [] (snd kv) with [] => [] | p => [(fst kv, map (fun i => i + 1 + off)%Z p)] end) cs) =
     match dget k cs with Some v => match hd [] v with [] => [] | p => [(k, map (fun i => i + 1 + off)%Z p)] end | None => [] end).
  { clear IH. induction cs as [|[k' v] cs IHc]; [reflexivity|]. cbn [flat_map dget fst snd]. rewrite filter_app. cbn [dkeys map fst] in Hn. inversion Hn; subst.
    destruct (String.eqb_spec k k') as [->|Hne].
    - rewrite IHc by auto. replace (dget k' cs) with (@None (list (list Z))) by (symmetry; now apply dget_None). rewrite app_nil_r. destruct (hd [] v); [reflexivity|]. cbn [filter fst]. now rewrite String.eqb_refl.
    - rewrite IHc by auto. destruct (hd [] v); cbn [filter fst app]; [reflexivity|]. destruct (String.eqb_spec k' k); [congruence|]. reflexivity. }
  rewrite G1.
  assert (G2 : dget k (map (fun kv : string * list (list Z) => (fst kv, tl (snd kv))) cs) = option_map (@tl (list Z)) (dget k cs)).
  { clear. induction cs as [|[k' v] cs IHc]; [reflexivity|]. cbn [map dget fst snd]. destruct (String.eqb k k'); [reflexivity|exact IHc]. }
  rewrite G2. destruct (dget k cs) as [v|]; [|reflexivity]. cbn [option_map]. destruct v as [|p v]; [cbn; destruct bs; reflexivity|]. cbn [hd tl psecs]. rewrite map_app. destruct p; reflexivity.
Qed.
Lemma psecs_range bs : forall off v, Forall2 (fun b p => Forall (fun i => 0 <= i < Z.of_nat (blen b))%Z p) bs v ->
  Forall (fun ids => ids <> [] /\ Forall (fun z => off < z <= off + Z.of_nat (list_sum (map blen bs)))%Z ids) (psecs off bs v).
Proof.
  induction bs as [|b bs IH]; intros off v H; inversion H as [|? p ? v' Hp H']; subst; [constructor|]. cbn [psecs]. apply Forall_app. split.
  - destruct p as [|i p]; [constructor|]. constructor; [|constructor]. split; [discriminate|]. apply Forall_forall. intros z Hz. apply in_map_iff in Hz. destruct Hz as (j & <- & Hj).
    rewrite Forall_forall in Hp. specialize (Hp _ Hj). cbn beta in Hp. cbn [map list_sum fold_right]. unfold list_sum. cbn [fold_right]. lia.
  - eapply Forall_impl; [|apply IH; eauto]. intros ids [? Hi]. split; auto. eapply Forall_impl; [|exact Hi]. cbn beta. unfold list_sum. cbn [map fold_right]. lia.
Qed.
Lemma no_hits eid n ids : Forall (fun z => ~ (eid < z <= eid + Z.of_nat n))%Z ids ->
  flat_map (fun i => match zget i (id_map (id_range eid n)) with Some k => [Z.of_nat k] | None => [] end) ids = [].
Proof. induction 1 as [|z ids Hz _ IH]; [reflexivity|]. cbn [flat_map]. rewrite id_range_out by auto. exact IH. Qed.
Lemma all_hits eid n p : Forall (fun i => 0 <= i < Z.of_nat n)%Z p ->
  flat_map (fun i => match zget i (id_map (id_range eid n)) with Some k => [Z.of_nat k] | None => [] end) (map (fun i => i + 1 + eid)%Z p) = p.
Proof.
  induction 1 as [|i p Hi _ IH]; [reflexivity|]. cbn [map flat_map]. rewrite IH. replace (i + 1 + eid)%Z with (eid + 1 + i)%Z by lia.
  destruct (id_range_pos eid n i Hi) as [-> _]. cbn [app]. f_equal. lia.
Qed.
Lemma later_blocks bs : forall eid ids, Forall (fun z => z <= eid)%Z ids -> id_sets ids (id_maps eid bs) = map (fun _ => Idx []) bs.
Proof.
  induction bs as [|b bs IH]; intros eid ids H; [reflexivity|]. cbn [id_maps]. unfold id_sets. cbn [map]. f_equal.
  - f_equal. apply no_hits. eapply Forall_impl; [|exact H]. cbn. intros. lia.
  - apply IH. eapply Forall_impl; [|exact H]. cbn. intros. lia.
Qed.
Lemma psecs_last bs : forall off v, Forall2 (fun b p => Forall (fun i => 0 <= i < Z.of_nat (blen b))%Z p) bs v ->
  option_map (fun ids => id_sets ids (id_maps off bs)) (last_opt (psecs off bs v)) = option_map (map Idx) (last_part v).
Proof.
  induction bs as [|b bs IH]; intros off v H; inversion H as [|? p ? v' Hp H']; subst; [reflexivity|]. cbn [psecs last_part]. rewrite last_opt_app.
  specialize (IH (off + Z.of_nat (blen b))%Z v' H'). pose proof (psecs_range bs (off + Z.of_nat (blen b))%Z v' H') as Hr.
  destruct (last_opt (psecs (off + Z.of_nat (blen b)) bs v')) as [ids|] eqn:El; cbn [option_map] in IH.
  - destruct (last_part v') as [r|]; [|discriminate]. cbn [option_map map] in *. f_equal. injection IH as IH. rewrite <- IH. cbn [id_maps]. unfold id_sets at 1. cbn [map]. f_equal. f_equal. apply no_hits.
    assert (Hin : In ids (psecs (off + Z.of_nat (blen b)) bs v')). { unfold last_opt in El. apply in_rev. destruct (rev _); [discriminate|]. injection El as <-. now left. }
    rewrite Forall_forall in Hr. destruct (Hr _ Hin) as [_ Hz]. eapply Forall_impl; [|exact Hz]. cbn. intros. lia.
  - destruct (last_part v') as [r|]; [discriminate|]. destruct p as [|i p]; [reflexivity|]. cbn [last_opt rev app option_map]. f_equal. cbn [id_maps]. unfold id_sets. cbn [map]. f_equal.
    + f_equal. exact (all_hits off (blen b) (i :: p) Hp).
    + rewrite map_map. change (map ?f (id_maps ?e bs)) with (id_sets ((i + 1 + off)%Z :: map (fun i => i + 1 + off)%Z p) (id_maps e bs)).
      rewrite later_blocks.
      * clear -H'. induction H'; cbn; f_equal; auto.
      * apply (Forall_map (fun i => i + 1 + off)%Z (fun z => (z <= off + Z.of_nat (blen b))%Z) (i :: p)). eapply Forall_impl; [|exact Hp]. cbn. intros. lia.
Qed.

Lemma fold_dset_new {A} (S : dict A) : forall d, NoDup (dkeys S) -> (forall k, In k (dkeys S) -> dget k d = None) ->
  fold_left (fun d s => dset (fst s) (snd s) d) S d = d ++ S.
Proof.
  induction S as [|[k v] S IH]; intros d Hn Hd; [cbn; now rewrite app_nil_r|]. cbn [fold_left fst snd]. cbn [dkeys map fst] in Hn. inversion Hn; subst.
  assert (E : dset k v d = d ++ [(k, v)]).
  { assert (E : dget k d = None) by (apply Hd; now left). clear -E. induction d as [|[k' v'] d IHd]; [reflexivity|]. cbn [dget dset app] in *. destruct (String.eqb k k'); [discriminate|]. now rewrite IHd. }
  rewrite E, IH; [now rewrite <- app_assoc|auto|]. intros k' Hk'. rewrite <- E. rewrite dget_dset_other; [apply Hd; now right|]. intros ->. contradiction.
Qed.
Lemma nodes_numbered (pts : list (list fl)) : forall s, map fst (map (fun kp : nat * list fl => (Z.of_nat (fst kp + 1), snd kp)) (combine (seq s (length pts)) pts)) = id_range (Z.of_nat s) (length pts) /\
  map snd (map (fun kp : nat * list fl => (Z.of_nat (fst kp + 1), snd kp)) (combine (seq s (length pts)) pts)) = pts.
Proof.
  induction pts as [|p pts IH]; intros s; [auto|]. cbn [length seq combine map fst snd]. destruct (IH (S s)) as [E1 E2]. rewrite E1, E2. rewrite id_range_S. split; [|reflexivity]. f_equal; [lia|]. f_equal. lia.
Qed.

Lemma version_skipped v : skipped ("written by meshio v" ++ v)%string.
Proof.
  right. change ("written by meshio v" ++ v)%string with (String "w" ("ritten by meshio v" ++ v)). generalize ("ritten by meshio v" ++ v)%string. intros s.
  assert (G : exists x, keyword (String "w" s) = String "W" x).
  { unfold keyword. cbn [split_char Ascii.eqb Bool.eqb].
    assert (E : exists x, hd "" (match split_char "," s with [] => ["w"] | x :: xs => String "w" x :: xs end) = String "w" x) by (destruct (split_char "," s); cbn [hd]; eauto).
    destruct E as [x ->]. unfold strip. change (lstrip (String "w" x)) with (String "w" x). cbn [rstrip is_space]. destruct (rstrip x) as [|a t]; [exists ""; reflexivity|]. eexists. reflexivity. }
  destruct G as [x ->]. cbn. intuition discriminate.
Qed.

Theorem roundtrip version m d :
  Forall (fun p => length p = d) (ai_points m) -> (Z.of_nat (length (ai_points m)) <= 2147483647)%Z ->
  Forall (abaqus_cells (length (ai_points m))) (ai_cells m) -> (Z.of_nat (list_sum (map blen (ai_cells m))) <= 2147483647)%Z ->
  NoDup (dkeys (ai_psets m)) -> Forall (fun s => set_name (fst s) /\ Forall (fun i => 0 <= i < Z.of_nat (length (ai_points m)))%Z (snd s)) (ai_psets m) ->
  NoDup (dkeys (ai_csets m)) -> Forall (fun s => set_name (fst s) /\ Forall2 (fun b p => Forall (fun i => 0 <= i < Z.of_nat (blen b))%Z p) (ai_cells m) (snd s)) (ai_csets m) ->
  exists file m', write_abaqus version true m = Ok file /\ read_abaqus include file = Ok m' /\
    ab_points m' = ai_points m /\ ab_cells m' = ai_cells m /\ ab_psets m' = ai_psets m /\
    forall k, dget k (ab_csets m') = match dget k (ai_csets m) with Some v => option_map (map Idx) (last_part v) | None => None end.
Proof.
  intros Hp Hpn Hc Hcn Hs1 Hs2 Hs3 Hs4. set (n := length (ai_points m)) in *.
  destruct (sections_of_ok n (ai_cells m) 0%Z Hc) as (A1 & A2 & A3 & A4).
  set (S := csecs 0 (ai_cells m) (ai_csets m)).
  assert (Ecs : elset_sections (ai_csets m) 0 0 (ai_cells m) = Ok (flat_map elset_text S)).
  { rewrite elset_sections_data. - do 3 f_equal. unfold S. f_equal. rewrite <- map_id. apply map_ext. intros [k v]. reflexivity.
    - eapply Forall_impl; [|exact Hs4]. intros [k v] [_ H2]. symmetry. exact (Forall2_length _ _ _ H2). }
  unfold write_abaqus. rewrite (elem_sections_data n) by auto. cbn [bind]. rewrite Ecs. cbn [bind].
  set (nodes := map (fun kp : nat * list fl => (Z.of_nat (fst kp + 1), snd kp)) (enumerate (ai_points m))).
  destruct (nodes_numbered (ai_points m) 0) as [N1 N2]. fold (enumerate (ai_points m)) in N1, N2. fold nodes in N1, N2. fold n in N1. cbn [Z.of_nat] in N1.
  set (nls := map (fun nd : Z * list fl => Row (fun k => if Nat.eqb k 0 then 0 else 1) false (str_of_Z (fst nd) :: map ffmt (snd nd))) nodes).
  assert (El : map (fun kp : nat * list fl => join ", " (str_of_nat (fst kp + 1) :: map ffmt (snd kp))) (enumerate (ai_points m)) = map line_text nls).
  { unfold nls, nodes. rewrite !map_map. apply map_ext. intros [k p]. cbn [fst snd]. rewrite space_row. now rewrite str_of_nat_Z. }
  rewrite El.
  assert (Een : entries nls = map (fun n => str_of_Z (fst n) :: map ffmt (snd n)) nodes).
  { unfold nls. clear. induction nodes as [|x l IH]; [reflexivity|]. cbn [map]. rewrite entries_cons. cbn [line_entries app]. f_equal. exact IH. }
  set (st1 := with_nodes nodes abq_init). 
  set (st2 := with_blocks (ai_cells m) (id_maps 0 (ai_cells m)) st1).
  set (st3 := AbqState (as_points st2) (as_ids st2) (as_cells st2) (as_cell_ids st2) (as_psets st2) (fold_left (set_into (as_cell_ids st2)) S (as_csets st2)) (as_esets st2) (as_eorder st2)).
  set (st4 := AbqState (as_points st3) (as_ids st3) (as_cells st3) (as_cell_ids st3) (fold_left (fun d s => dset (fst s) (snd s) d) (ai_psets m) (as_psets st3)) (as_csets st3) (as_esets st3) (as_eorder st3)).
  assert (HR : reach abq_init (["*HEADING"; "Abaqus DataFile Version 6.14"; ("written by meshio v" ++ version)%string; "*NODE"] ++ map line_text nls ++ flat_map esection_text (sections_of 0 (ai_cells m)) ++ flat_map elset_text S ++ nset_sections (ai_psets m)) st4 []).
  { eapply reach_trans. { apply (reach_skips include abq_init ["*HEADING"; "Abaqus DataFile Version 6.14"; ("written by meshio v" ++ version)%string] ("*NODE" :: map line_text nls ++ flat_map esection_text (sections_of 0 (ai_cells m)) ++ flat_map elset_text S ++ nset_sections (ai_psets m))).
      constructor; [right; vm_compute; intuition discriminate|]. constructor; [right; vm_compute; intuition discriminate|]. constructor; [apply version_skipped|constructor]. }
    assert (F1 : fresh (flat_map nset_text (ai_psets m) ++ [])) by (apply fresh_nsets; exact I).
    rewrite <- (app_nil_r (nset_sections (ai_psets m))). change (nset_sections (ai_psets m)) with (flat_map nset_text (ai_psets m)).
    eapply reach_trans. { eapply (reach_nodes fok fcomma include _ nls nodes d).
      - unfold nls. apply Forall_forall. intros x Hx. apply in_map_iff in Hx. destruct Hx as (y & <- & _). reflexivity.
      - exact Een.
      - apply Forall_forall. intros x Hx. apply (in_map snd) in Hx. rewrite N2 in Hx. rewrite Forall_forall in Hp. auto.
      - apply fresh_esections, fresh_elsets. exact F1. }
    eapply reach_trans. { apply (reach_elements (id_range 0 n)).
      - apply id_range_nodup.
      - cbn [as_ids with_nodes]. now rewrite N1.
      - now apply fresh_elsets.
      - exact A1.
      - exact A2. }
    rewrite A3, A4. fold st1. fold st2.
    eapply reach_trans; [apply reach_elsets; [|exact F1]|fold st3; apply (reach_nsets n); auto].
    - apply Forall_forall. intros [k ids] Hin. assert (Hf : In (k, ids) (filter (fun s => String.eqb (fst s) k) S)) by (apply filter_In; cbn; rewrite String.eqb_refl; auto).
      unfold S in Hf. rewrite csecs_key in Hf by auto. destruct (dget k (ai_csets m)) as [v|] eqn:Ek; [|contradiction]. apply dget_In in Ek. rewrite Forall_forall in Hs4. destruct (Hs4 _ Ek) as [G1 G2]. cbn [fst snd] in *.
      split; [exact G1|]. apply in_map_iff in Hf. destruct Hf as (ids' & E & Hf). injection E as ->. pose proof (psecs_range _ 0%Z _ G2) as Hr. rewrite Forall_forall in Hr. destruct (Hr _ Hf) as [R1 R2]. split; [exact R1|]. eapply Forall_impl; [|exact R2]. cbn. intros. lia.
    - unfold st3, st2, st1. cbn [as_ids with_blocks with_nodes]. now rewrite N1.
    - exact I. }
  apply reach_end in HR. eexists. eexists. split; [reflexivity|]. unfold read_abaqus. rewrite HR. cbn [bind]. 
  unfold st4, st3, st2, st1. cbn [as_eorder as_esets as_csets as_points as_cells as_psets as_cell_ids with_blocks with_nodes abq_init element_sets bind app].
  split; [reflexivity|]. cbn [ab_points ab_cells ab_psets ab_csets]. split; [exact N2|]. split; [reflexivity|]. split; [now rewrite fold_dset_new|].
  intros k. rewrite fold_set_dget. unfold S. rewrite csecs_key by auto. cbn [dget]. destruct (dget k (ai_csets m)) as [v|] eqn:Ek; [|reflexivity].
  apply dget_In in Ek. rewrite Forall_forall in Hs4. destruct (Hs4 _ Ek) as [_ G2]. cbn [snd] in G2. rewrite <- (psecs_last _ 0%Z _ G2).
  unfold last_opt. rewrite <- map_rev. destruct (rev (psecs 0 (ai_cells m) v)); reflexivity.
Qed.

(** ** Sets that lie in one block *)
Lemma last_part_empty n : last_part (repeat [] n) = None.
Proof. induction n as [|n IH]; [reflexivity|]. cbn [repeat last_part]. now rewrite IH. Qed.
Lemma one_block_kept v : one_block v -> last_part v = Some v.
Proof.
  intros (a & p & b & -> & Hp). induction a as [|a IH]; cbn [repeat app last_part].
  - rewrite last_part_empty. destruct p; [congruence|]. do 2 f_equal. clear. induction b as [|b IH]; [reflexivity|]. cbn. now rewrite IH.
  - now rewrite IH.
Qed.
Lemma kept_one_block v r : last_part v = Some r -> one_block r /\ length r = length v.
Proof.
  revert r; induction v as [|p v IH]; intros r; [discriminate|]. cbn [last_part]. destruct (last_part v) as [r'|].
  - intros [= <-]. destruct (IH _ eq_refl) as ((a & q & b & -> & Hq) & Hl). split; [|cbn; now rewrite Hl]. exists (S a), q, b. auto.
  - destruct p as [|i p]; [discriminate|]. intros [= <-]. split; [|cbn; now rewrite map_length]. exists 0, (i :: p), (length v). split; [|discriminate]. cbn. f_equal. clear. induction v; cbn; f_equal; auto.
Qed.
End File.

