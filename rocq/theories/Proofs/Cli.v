(** Proofs about the command line tools. *)
From Coq Require Import Lia.
From Verif.Lib Require Import Base Facts Text TextFacts Lines Bytes File.
From Verif.Model Require Import Core Helpers Ansys Cli.
From Verif.Proofs Require Import Helpers.
Open Scope list_scope.

(** ** Extensions of the registered formats *)
(** The proper tails of a text that begin with a dot *)
Fixpoint dot_tails (s : string) : list string :=
  match s with
  | EmptyString => []
  | String _ s' => (match s' with String "."%char _ => [s'] | _ => [] end) ++ dot_tails s'
  end.
Definition dotted_ext (s : string) : Prop := exists t, s = String "." t.

Lemma dot_tails_in p k : p <> ""%string -> dotted_ext k -> In k (dot_tails (p ++ k)).
Proof.
  induction p as [|a p IH]; intros Hp (t & ->); [congruence|]. cbn [append dot_tails].
  destruct p as [|b p].
  - cbn. now left.
  - apply in_app_iff. right. apply IH; [discriminate|now exists t].
Qed.

Section Ext.
Variable m : dict (list string).
(** No extension ends with a shorter one. *)
Hypothesis Hm : forall k l, dget k m = Some l -> forall e, In e (dot_tails k) -> dget e m = None.

Lemma lower_dotted e : dotted_ext e -> dotted_ext (lower e).
Proof. intros (t & ->). now exists (lower t). Qed.

Lemma dotted_app p e : dotted_ext p -> dotted_ext (p ++ e)%string.
Proof. intros (t & ->). now exists (t ++ e)%string. Qed.

Lemma string_app_assoc (a b c : string) : (a ++ (b ++ c) = (a ++ b) ++ c)%string.
Proof. induction a as [|x a IH]; [reflexivity|]. cbn. now rewrite IH. Qed.

Lemma loop_after sufs : forall p e l, Forall dotted_ext sufs -> dotted_ext e -> lower e = e -> dget e m = Some l ->
  filetypes_loop m (p ++ e) sufs = [].
Proof.
  induction sufs as [|s sufs IH]; intros p e l Hs He Hlow Hl; [reflexivity|]. inversion Hs as [|? ? Hd Hs']; subst.
  assert (E0 : lower (s ++ p ++ e) = (lower (s ++ p) ++ e)%string) by (rewrite !lower_app, Hlow; apply string_app_assoc).
  cbn [filetypes_loop]. rewrite E0.
  destruct (dget (lower (s ++ p) ++ e) m) as [l'|] eqn:E.
  - exfalso. assert (H : dget e m = None); [|congruence]. apply (Hm _ _ E). apply dot_tails_in; [|assumption].
    destruct Hd as (t & ->). discriminate.
  - cbn [app]. eapply IH; eauto.
Qed.

Lemma loop_hit sufs : forall ext, Forall dotted_ext sufs -> lower ext = ext -> filetypes_loop m ext sufs <> [] ->
  exists e, dget e m = Some (filetypes_loop m ext sufs) /\
    (e = lower (hd "" sufs ++ ext) \/ (sufs <> [] /\ exists p, p <> ""%string /\ dotted_ext p /\ e = (p ++ lower (hd "" sufs ++ ext))%string)).
Proof.
  induction sufs as [|s sufs IH]; intros ext Hs Hlow Hne; [now elim Hne|]. inversion Hs as [|? ? Hd Hs']; subst.
  cbn [filetypes_loop hd] in *.
  destruct (dget (lower (s ++ ext)) m) as [l|] eqn:E.
  - exists (lower (s ++ ext)). split; [|now left].
    change (lower (s ++ ext)) with ("" ++ lower (s ++ ext))%string at 2.
    rewrite (loop_after sufs "" (lower (s ++ ext)) l); auto using lower_idem.
    + now rewrite app_nil_r.
    + apply lower_dotted, dotted_app, Hd.
  - cbn [app] in *. destruct (IH (lower (s ++ ext)) Hs' (lower_idem _) Hne) as (e & H1 & H2).
    exists e. split; [assumption|]. right. split; [discriminate|].
    destruct sufs as [|s2 sufs]; [cbn in Hne; congruence|]. inversion Hs' as [|? ? (t2 & Ht2) _]; subst. cbn [hd] in H2.
    rewrite lower_app, lower_idem in H2. destruct H2 as [->|(_ & p & Hp1 & Hp2 & ->)].
    + exists (lower (String "." t2)). split; [discriminate|]. split; [now exists (lower t2)|reflexivity].
    + exists (p ++ lower (String "." t2))%string. split; [destruct p; [congruence|discriminate]|]. split; [now apply dotted_app|].
      now rewrite string_app_assoc.
Qed.
End Ext.

(** ** The default registry *)
Section Default.
Context {R : Type} (rd : string -> R).

Definition default_exts : dict (list string) := ext_map (default_registry (fun n : string => n)).
Lemma default_ext_map : ext_map (default_registry rd) = default_exts.
Proof. vm_compute. reflexivity. Qed.

Definition default_names : list string := map fst (reader_map (default_registry (fun n : string => n))).
Lemma default_reader_map : reader_map (default_registry rd) = map (fun n => (n, rd n)) default_names.
Proof. vm_compute. reflexivity. Qed.
Lemma default_readers fmt g : dget fmt (reader_map (default_registry rd)) = Some g -> g = rd fmt.
Proof.
  rewrite default_reader_map. induction default_names as [|n l IH]; cbn [map dget]; [discriminate|].
  cbn [fst snd]. destruct (String.eqb_spec fmt n) as [->|]; [congruence|exact IH].
Qed.

Lemma default_reader_get fmt : smem fmt default_names = true -> dget fmt (reader_map (default_registry rd)) = Some (rd fmt).
Proof.
  rewrite default_reader_map. induction default_names as [|n l IH]; cbn [map dget]; [discriminate|].
  unfold smem. cbn [existsb fst snd]. destruct (String.eqb_spec fmt n) as [->|]; [reflexivity|exact IH].
Qed.

Definition exts_ok (d : dict (list string)) : bool :=
  forallb (fun kv => forallb (fun e => match dget e d with None => true | Some _ => false end) (dot_tails (fst kv)) &&
                     (String.eqb (fst kv) ".msh" || Nat.eqb (length (snd kv)) 1)) d.
Lemma default_exts_ok : exts_ok default_exts = true.
Proof. vm_compute. reflexivity. Qed.

Opaque default_exts.
Lemma default_get k l : dget k default_exts = Some l ->
  (forall e, In e (dot_tails k) -> dget e default_exts = None) /\ (k = ".msh"%string \/ exists f, l = [f]).
Proof.
  intros H. apply dget_In in H. pose proof default_exts_ok as G. unfold exts_ok in G. rewrite forallb_forall in G.
  specialize (G _ H). cbn [fst snd] in G. apply andb_prop in G. destruct G as [G1 G2]. split.
  - intros e He. rewrite forallb_forall in G1. specialize (G1 e He). destruct (dget e default_exts); [discriminate|reflexivity].
  - apply orb_prop in G2. destruct G2 as [G2|G2].
    + left. exact (proj1 (String.eqb_eq _ _) G2).
    + right. clear H G1. destruct l as [|f [|]]; try discriminate G2. now exists f.
Qed.

Lemma suffixes_dotted name : Forall dotted_ext (suffixes name).
Proof.
  unfold suffixes. destruct (ends_with_dot name); constructor || idtac.
  apply Forall_forall. intros x Hx. apply in_map_iff in Hx. destruct Hx as (y & <- & _). now exists y.
Qed.

(** The formats of a file name: one, unless the last suffix is .msh *)
Lemma default_formats name l : filetypes_from_path (default_registry rd) name = Ok l ->
  (exists f, l = [f]) \/ lower (last (suffixes name) "") = ".msh"%string.
Proof.
  unfold filetypes_from_path. rewrite default_ext_map.
  pose proof (loop_hit default_exts (fun k l H => proj1 (default_get k l H)) (rev (suffixes name)) "") as L.
  destruct (filetypes_loop default_exts "" (rev (suffixes name))) as [|f0 l0] eqn:E; [discriminate|].
  intros H. injection H as <-.
  destruct L as (e & H1 & H2); [|reflexivity|discriminate|].
  { apply Forall_rev, suffixes_dotted. }
  pose proof (suffixes_dotted name) as HS.
  destruct (default_get _ _ H1) as [H3 [->|H4]]; [|now left].
  right. assert (Hlast : forall xs : list string, hd ""%string (rev xs) = last xs ""%string).
  { intros xs. destruct xs as [|x xs] using rev_ind; [reflexivity|]. now rewrite rev_unit, last_last. }
  rewrite Hlast, str_app_nil_r in H2.
  destruct H2 as [H2|(Hn & p & Hp1 & Hp2 & H2)]; [auto|].
  exfalso. destruct Hp2 as (t & ->). injection H2 as H2.
  assert (Hd : dotted_ext (last (suffixes name) "")).
  { destruct (suffixes name) as [|x xs] using rev_ind; [now elim Hn|]. rewrite last_last. apply Forall_app in HS.
    destruct HS as [_ HS]. now inversion HS. }
  destruct (lower_dotted _ Hd) as (t2 & Ht2). rewrite Ht2 in H2.
  assert (Hc : char_in "." (t ++ String "." t2) = true).
  { clear. induction t as [|a t IH]; [reflexivity|]. cbn. rewrite IH. apply Bool.orb_true_r. }
  rewrite <- H2 in Hc. discriminate.
Qed.
End Default.

(** ** In-place commands *)
Section InPlace.
Context {M File : Type} (rd : string -> reader File M).

Lemma try_one (rm : dict (reader File M)) f fmt tr m : try_formats rm f [fmt] = (tr, Ok m) ->
  exists g, dget fmt rm = Some g /\ g f = Ok m /\ tr = [fmt].
Proof.
  cbn [try_formats]. destruct (dget fmt rm) as [g|]; [|discriminate]. intros H. exists g. split; [reflexivity|].
  destruct (g f) as [x|e] eqn:E.
  - injection H as <- ->. auto.
  - destruct e; discriminate.
Qed.

Lemma try_two (rm : dict (reader File M)) f a b ra rb m : dget a rm = Some ra -> ra f = Err ReadError ->
  dget b rm = Some rb -> rb f = Ok m -> try_formats rm f [a; b] = ([a; b], Ok m).
Proof. intros H1 H2 H3 H4. cbn [try_formats]. now rewrite H1, H2, H3, H4. Qed.

Lemma in_place_one c exists_ name input f tr fmt kws m :
  in_place (default_registry rd) c exists_ name input f = (tr, Ok (fmt, kws, m)) ->
  given input <> None \/ lower (last (suffixes name) "") <> ".msh"%string ->
  tr = [fmt] /\ rd fmt f = Ok m /\ dget fmt (in_place_table c) = Some kws.
Proof.
  intros H Hc. unfold in_place in H.
  set (r := default_registry rd) in *.
  assert (G : exists fm, (match given input with Some ff => Ok ff | None => do l <- filetypes_from_path r name; of_option IndexError (hd_error l) end)
                         = Ok fm /\ forall x, read_file r true name input f = x -> x = try_formats (reader_map r) f [fm]).
  { destruct (given input) as [ff|] eqn:Eg.
    - exists ff. split; [reflexivity|]. intros x <-. unfold read_file. cbn [negb]. now rewrite Eg.
    - destruct Hc as [Hc|Hc]; [congruence|].
      destruct (filetypes_from_path r name) as [l|e] eqn:Ef; [|cbn in H; discriminate].
      destruct (default_formats rd name l Ef) as [(fm & ->)|]; [|congruence].
      exists fm. split; [reflexivity|]. intros x <-. unfold read_file. cbn [negb]. now rewrite Eg, Ef. }
  destruct G as (fm & G1 & G2). rewrite G1 in H. destruct exists_; [|discriminate]. cbn [negb] in H.
  specialize (G2 _ eq_refl). rewrite G2 in H.
  destruct (try_formats (reader_map r) f [fm]) as [tr' [x|e]] eqn:Et; [|discriminate].
  apply try_one in Et. destruct Et as (g & Hg & Hx & ->). apply default_readers in Hg. subst g.
  cbn [bind] in H. destruct (dget fm (in_place_table c)) as [k|] eqn:Ek; [|discriminate].
  injection H as <- <- <- <-. auto.
Qed.
End InPlace.

(** ** ANSYS files *)
Section Ansys.
Context {fl : floats} (c4 c8 : codec fl).

(** A text that begins with a dollar sign is no ANSYS file. *)
Lemma ansys_refuses_dollar fuel s : fuel <> 0 -> read_ansys c4 c8 fuel (String "$" s) = Err ReadError.
Proof.
  intros Hf. destruct fuel as [|k]; [congruence|].
  destruct (readline s) as [l rest] eqn:Er.
  assert (E0 : readline (String "$" s) = (String "$" l, rest)) by (cbn [readline]; now rewrite Er).
  assert (E : String.eqb (strip (String "$" l)) "" = false).
  { unfold strip. change (lstrip (String "$" l)) with (String "$" l). cbn [rstrip].
    destruct (rstrip l); reflexivity. }
  unfold read_ansys. cbn [ansys_loop]. rewrite E0. change (String.eqb (String "$" l) "") with false. cbv beta iota zeta.
  rewrite E. reflexivity.
Qed.

Lemma blocks_left binary kbs : forall first,
  ansys_blocks_text binary first kbs = match snd (ansys_blocks_left binary first kbs) with
                                       | Ok _ => Ok (fst (ansys_blocks_left binary first kbs))
                                       | Err e => Err e end.
Proof.
  induction kbs as [|kb kbs IH]; intros first; [reflexivity|]. cbn [ansys_blocks_text ansys_blocks_left].
  destruct (ansys_block_text binary first kb) as [s|e]; [|reflexivity]. cbn [bind fst snd].
  rewrite IH. now destruct (snd (ansys_blocks_left _ _ kbs)).
Qed.

Lemma ansys_left_write v binary m :
  write_ansys c4 c8 v binary m = match snd (ansys_left c4 c8 v binary m) with
                                 | Ok _ => Ok (fst (ansys_left c4 c8 v binary m))
                                 | Err e => Err e end.
Proof.
  unfold write_ansys, ansys_left. destruct (negb _); [reflexivity|]. rewrite blocks_left. cbn [fst snd].
  now destruct (snd (ansys_blocks_left _ _ _)).
Qed.

Lemma ansys_left_head v binary m : exists s, fst (ansys_left c4 c8 v binary m) = String "(" s.
Proof. unfold ansys_left. destruct (negb _); cbn [fst]; eexists; reflexivity. Qed.
End Ansys.

(** ** meshio convert *)
Section Convert.
Context {F : Type}.

Lemma dict_loop_deletes {M} (size : M -> nat) n step k ks m :
  (forall m', step k m = Ok m' -> size m' <> n) -> exists e, dict_loop size n step (k :: ks) m = Err e.
Proof.
  intros H. cbn [dict_loop]. destruct (negb _); [eauto|]. destruct (step k m) as [m'|e] eqn:E; [|cbn; eauto].
  cbn [bind]. specialize (H m' eq_refl). destruct ks; cbn [dict_loop];
  destruct (Nat.eqb_spec (size m') n) as [E'|_]; try congruence; cbn; eauto.
Qed.

Lemma length_ddel {V} k (d : dict V) : In k (dkeys d) -> length (ddel k d) < length d.
Proof.
  induction d as [|[x v] d IH]; cbn; [tauto|]. intros [->|H].
  - rewrite String.eqb_refl. cbn. assert (length (ddel k d) <= length d); [|lia].
    clear. induction d as [|[x v'] d IH]; cbn; [lia|]. destruct (String.eqb k x); cbn; lia.
  - destruct (String.eqb k x) eqn:E; cbn; [|specialize (IH H); lia].
    assert (length (ddel k d) <= length d); [|lia].
    clear. induction d as [|[y v'] d IH]; cbn; [lia|]. destruct (String.eqb k y); cbn; lia.
Qed.

Lemma point_step k (m m' : mesh F) : In k (dkeys (point_data m)) -> point_data_to_sets k m = Ok m' ->
  length (point_data m') <> length (point_data m).
Proof.
  intros Hk. unfold point_data_to_sets. destruct (dget k (point_data m)) as [d|]; [|discriminate].
  destruct (int_entries d); [|discriminate]. intros H. injection H as <-. cbn. pose proof (length_ddel k _ Hk). lia.
Qed.
Lemma cell_step k (m m' : mesh F) : In k (dkeys (cell_data m)) -> cell_data_to_sets k m = Ok m' ->
  length (cell_data m') <> length (cell_data m).
Proof.
  intros Hk. unfold cell_data_to_sets. destruct (dget k (cell_data m)) as [d|]; [|discriminate].
  destruct (mapO int_values d) as [[|]|]; try discriminate. intros H. injection H as <-. cbn. pose proof (length_ddel k _ Hk). lia.
Qed.

Lemma convert_sets_fails a (m : mesh F) : int_data_to_sets a = true -> sets_to_int_data a = false ->
  point_data m <> [] \/ cell_data m <> [] -> exists e, convert_sets a m = Err e.
Proof.
  intros Ha Hb Hm. unfold convert_sets. rewrite Ha, Hb. cbn [bind].
  destruct (point_data m) as [|[k v] d] eqn:E.
  - cbn [dict_loop dkeys map length]. rewrite E. cbn [length negb Nat.eqb bind].
    destruct Hm as [Hm|Hm]; [congruence|]. destruct (cell_data m) as [|[k v] d] eqn:E2; [congruence|].
    cbn [dkeys map fst]. rewrite <- E2. apply dict_loop_deletes. intros m' H. apply (cell_step k); [|exact H]. rewrite E2. now left.
  - cbn [dkeys map fst]. rewrite <- E.
    destruct (dict_loop_deletes (fun m : mesh F => length (point_data m)) (length (point_data m)) point_data_to_sets k (map fst d) m) as [e He].
    + intros m' H. apply (point_step k); [|exact H]. rewrite E. now left.
    + rewrite He. cbn. eauto.
Qed.

Lemma convert_sets_no_data a (m : mesh F) : sets_to_int_data a = false -> point_data m = [] -> cell_data m = [] ->
  convert_sets a m = Ok m.
Proof.
  intros Hb H1 H2. unfold convert_sets. rewrite Hb. cbn [bind]. destruct (int_data_to_sets a); [|reflexivity].
  rewrite H1. cbn [dkeys map dict_loop length]. rewrite H1. cbn [length negb Nat.eqb bind].
  rewrite H2. cbn [dkeys map dict_loop length]. rewrite H2. reflexivity.
Qed.
End Convert.
