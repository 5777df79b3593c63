(** Proofs about Model/Helpers.v (C11-C14). *)
From Verif.Lib Require Import Base Facts Text TextFacts.
From Verif.Model Require Import Core Helpers.
From Verif.Spec Require Import Helpers.

Section Reg.
Context {R W : Type}.
Notation reg := (registry R W).

Lemma dget_dupdate {V} k (d e : dict V) :
  dget k (dupdate d e) = match dget k (rev e) with Some v => Some v | None => dget k d end.
Proof.
  unfold dupdate. revert d; induction e as [|[k' v'] e IH]; intros d; cbn [fold_left rev]; auto.
  rewrite IH. cbn [fst snd].
  assert (Happ : forall l : dict V, dget k (l ++ [(k', v')]) =
            match dget k l with Some v => Some v | None => if String.eqb k k' then Some v' else None end).
  { induction l as [|[a b] l IHl]; cbn; auto. destruct (String.eqb k a); auto. }
  rewrite Happ, dget_dset. destruct (dget k (rev e)); auto. destruct (String.eqb k k'); auto.
Qed.

Lemma NoDup_dupdate {V} (d e : dict V) : NoDup (dkeys d) -> NoDup (dkeys (dupdate d e)).
Proof.
  unfold dupdate. revert d; induction e as [|[k v] e IH]; intros d H; cbn [fold_left]; auto.
  apply IH. now apply NoDup_dset.
Qed.

Lemma add_ext_get fmt m ext x :
  dget x (add_ext fmt m ext) =
  if String.eqb x ext then Some (match dget ext m with Some l => l | None => [] end ++ [fmt])
  else dget x m.
Proof.
  unfold add_ext. destruct (dget ext m) as [l|] eqn:E.
  - rewrite E, dget_dset. reflexivity.
  - rewrite dget_dset_same, !dget_dset. destruct (String.eqb x ext); auto.
Qed.

Lemma add_ext_NoDup fmt m ext : NoDup (dkeys m) -> NoDup (dkeys (add_ext fmt m ext)).
Proof.
  intros H. unfold add_ext. destruct (dget ext m) as [l|] eqn:E.
  - rewrite E. now apply NoDup_dset.
  - rewrite dget_dset_same. now apply NoDup_dset, NoDup_dset.
Qed.

Lemma add_exts_get fmt exts m x :
  match dget x (fold_left (add_ext fmt) exts m) with Some l => l | None => [] end =
  match dget x m with Some l => l | None => [] end ++
  repeat fmt (count_occ string_dec exts x).
Proof.
  revert m; induction exts as [|e exts IH]; intros m; cbn [fold_left count_occ].
  - cbn. now rewrite app_nil_r.
  - rewrite IH, add_ext_get. rewrite String.eqb_sym.
    destruct (string_dec e x) as [->|Hne].
    + rewrite String.eqb_refl. cbn [repeat]. now rewrite <- app_assoc.
    + rewrite (proj2 (String.eqb_neq _ _) Hne). reflexivity.
Qed.

(** Run a history. *)
Lemma run_snoc (h : list (op R W)) o : run (h ++ [o]) = step o (run h).
Proof. unfold run. now rewrite fold_left_app. Qed.

Definition reg_ok (r : reg) : Prop :=
  NoDup (dkeys (ext_map r)) /\ NoDup (dkeys (reader_map r)) /\ NoDup (dkeys (writer_map r)).

Lemma step_ok (o : op R W) r : reg_ok r -> reg_ok (step o r).
Proof.
  intros (H1 & H2 & H3). destruct o as [fmt exts rd wm|fmt]; cbn; repeat split.
  - cbn. clear H2 H3. revert H1. generalize (ext_map r) as m. induction exts as [|e exts IH]; intros m H; cbn; auto.
    apply IH. now apply add_ext_NoDup.
  - cbn. destruct rd; auto. now apply NoDup_dset.
  - cbn. now apply NoDup_dupdate.
  - cbn. unfold dkeys. rewrite map_map. cbn. exact H1.
  - cbn. destruct (dmem fmt (reader_map r)); auto. now apply NoDup_ddel.
  - cbn. destruct (dmem fmt (writer_map r)); auto. now apply NoDup_ddel.
Qed.

Lemma run_ok (h : list (op R W)) : reg_ok (run h).
Proof.
  induction h as [|o h IH] using rev_ind.
  - cbn. repeat split; constructor.
  - rewrite run_snoc. now apply step_ok.
Qed.

Lemma dget_cond_del {V} k f (d : dict V) : NoDup (dkeys d) ->
  dget k (if dmem f d then ddel f d else d) = if String.eqb k f then None else dget k d.
Proof.
  intros Hnd. unfold dmem. destruct (String.eqb_spec k f) as [->|Hne].
  - destruct (dget f d) eqn:E; auto. now apply dget_ddel_same.
  - destruct (dget f d); auto. now apply dget_ddel_other.
Qed.

Lemma reader_history (h : list (op R W)) fmt :
  dget fmt (reader_map (run h)) = last_reader fmt (rev h).
Proof.
  induction h as [|o h IH] using rev_ind; [reflexivity|].
  rewrite run_snoc, rev_unit. destruct o as [f exts rd wm|f]; cbn [step last_reader].
  - cbn [register_format reader_map]. destruct rd as [x|]; [|now rewrite andb_false_r].
    rewrite dget_dset, <- IH. cbn. rewrite andb_true_r. destruct (String.eqb fmt f); auto.
  - cbn [deregister_format reader_map]. rewrite dget_cond_del by apply run_ok. now rewrite IH.
Qed.

Lemma writer_history (h : list (op R W)) fmt :
  dget fmt (writer_map (run h)) = last_writer fmt (rev h).
Proof.
  induction h as [|o h IH] using rev_ind; [reflexivity|].
  rewrite run_snoc, rev_unit. destruct o as [f exts rd wm|f]; cbn [step last_writer].
  - cbn [register_format writer_map]. rewrite dget_dupdate, IH. reflexivity.
  - cbn [deregister_format writer_map]. rewrite dget_cond_del by apply run_ok. now rewrite IH.
Qed.

Definition ext_list (m : dict (list string)) (x : string) : list string :=
  match dget x m with Some l => l | None => [] end.

Lemma remove_first_count f g l :
  count_occ string_dec (remove_first f l) g =
  if string_dec f g then pred (count_occ string_dec l g) else count_occ string_dec l g.
Proof.
  induction l as [|y ys IH]; cbn; [now destruct (string_dec f g)|].
  destruct (String.eqb_spec f y) as [->|Hne].
  - destruct (string_dec y g) as [->|Hg]; auto.
  - cbn. rewrite IH. destruct (string_dec y g) as [->|Hy]; [|auto].
    destruct (string_dec f g); [congruence|auto].
Qed.

Lemma ext_list_map (g : list string -> list string) m x : g [] = [] ->
  ext_list (map (fun kv => (fst kv, g (snd kv))) m) x = g (ext_list m x).
Proof.
  intros Hg. unfold ext_list. induction m as [|[k v] m IH]; cbn; [auto|].
  destruct (String.eqb x k); auto.
Qed.

Lemma remove_first_notin f l : ~ In f l -> remove_first f l = l.
Proof.
  induction l as [|y ys IH]; cbn; auto. intros H. destruct (String.eqb_spec f y) as [->|Hne]; [tauto|].
  rewrite IH; auto.
Qed.

Lemma ext_deregister f (r : reg) x :
  ext_list (ext_map (deregister_format f r)) x = remove_first f (ext_list (ext_map r) x).
Proof.
  cbn [deregister_format ext_map].
  rewrite (ext_list_map (fun l => if smem f l then remove_first f l else l)) by reflexivity.
  destruct (smem f _) eqn:E; auto. apply smem_false in E. now rewrite remove_first_notin.
Qed.

Lemma ext_register f exts rd wm (r : reg) x :
  ext_list (ext_map (register_format f exts rd wm r)) x =
  ext_list (ext_map r) x ++ repeat f (count_occ string_dec exts x).
Proof. cbn [register_format ext_map]. apply add_exts_get. Qed.

Lemma ext_history (h : list (op R W)) x :
  ext_list (ext_map (run h)) x = ext_spec x h.
Proof.
  unfold ext_spec. induction h as [|o h IH] using rev_ind; [reflexivity|].
  rewrite run_snoc, fold_left_app. cbn [fold_left]. destruct o as [f exts rd wm|f]; cbn [step].
  - rewrite ext_register, IH. reflexivity.
  - rewrite ext_deregister, IH. reflexivity.
Qed.
End Reg.

(** ** C12 *)
Section Tries.
Context {File M : Type}.

Lemma try_formats_tries (rm : dict (reader File M)) f fmts :
  NoDup (dkeys rm) -> tries rm f fmts (fst (try_formats rm f fmts)) (snd (try_formats rm f fmts)).
Proof.
  intros Hnd. induction fmts as [|fmt rest IH]; cbn; [constructor|].
  destruct (dget fmt rm) as [rd|] eqn:E.
  - apply dget_In in E. destruct (rd f) as [m|e] eqn:Er.
    + cbn. eapply tries_hit; eauto. discriminate.
    + destruct e; try (cbn; eapply tries_hit; eauto; discriminate).
      destruct (try_formats rm f rest) as [tr out] eqn:Et. cbn in *. eapply tries_skip; eauto.
  - cbn. apply tries_unknown. now apply dget_None.
Qed.

Lemma tries_det (rm : dict (reader File M)) f fmts c1 o1 c2 o2 :
  NoDup (dkeys rm) -> tries rm f fmts c1 o1 -> tries rm f fmts c2 o2 -> c1 = c2 /\ o1 = o2.
Proof.
  intros Hnd H1. revert c2 o2. 
  assert (U : forall fmt a b, In (fmt, a) rm -> In (fmt, b) rm -> a = b).
  { intros fmt a b Ha Hb. apply In_dget in Ha; auto. apply In_dget in Hb; auto. congruence. }
  assert (K : forall fmt a, In (fmt, a) rm -> In fmt (map fst rm)).
  { intros fmt a Ha. apply in_map_iff. exists (fmt, a). auto. }
  induction H1 as [|fmt rest Hn|fmt rest rd out Hin Hrd Hne|fmt rest rd called out Hin Hrd Ht IH];
    intros c2 o2 H2; inversion H2; subst; try (exfalso; eauto; fail); auto.
  - split; auto. erewrite (U fmt rd rd0); eauto.
  - exfalso. assert (rd = rd0) by eauto. subst. congruence.
  - exfalso. assert (rd = rd0) by eauto. subst. congruence.
  - match goal with H : tries _ _ rest _ _ |- _ => destruct (IH _ _ H) as [-> ->]; auto end.
Qed.
End Tries.

(** ** C13 *)
Lemma lower_ascii_idem a : lower_ascii (lower_ascii a) = lower_ascii a.
Proof.
  destruct a as [b0 b1 b2 b3 b4 b5 b6 b7].
  destruct b0, b1, b2, b3, b4, b5, b6, b7; vm_compute; reflexivity.
Qed.
Lemma lower_idem s : lower (lower s) = lower s.
Proof. induction s as [|a s IH]; cbn; auto. now rewrite lower_ascii_idem, IH. Qed.
Lemma lower_app s t : lower (s ++ t)%string = (lower s ++ lower t)%string.
Proof. induction s as [|a s IH]; cbn; auto. now rewrite IH. Qed.

Lemma filetypes_loop_app m ext l1 l2 :
  filetypes_loop m ext (l1 ++ l2) =
  filetypes_loop m ext l1 ++ filetypes_loop m (fold_left (fun e s => lower (s ++ e)%string) l1 ext) l2.
Proof.
  revert ext; induction l1 as [|s l1 IH]; intros ext; cbn; auto. now rewrite IH, app_assoc.
Qed.

Lemma fold_ext parts :
  fold_left (fun e s => lower (s ++ e)%string) (rev (map (fun x => String "." x) parts)) "" =
  lower (dotted parts).
Proof.
  induction parts as [|x parts IH]; cbn [map rev dotted]; auto.
  rewrite fold_left_app, IH. cbn [fold_left].
  rewrite lower_app, lower_idem. cbn. now rewrite lower_app.
Qed.

Lemma filetypes_loop_tails m parts :
  filetypes_loop m "" (rev (map (fun x => String "." x) parts)) =
  flat_map (fun t => formats_for m (lower (dotted t))) (tails parts).
Proof.
  induction parts as [|x parts IH]; cbn [map rev tails]; auto.
  rewrite filetypes_loop_app, IH, fold_ext, flat_map_app. f_equal.
  cbn [filetypes_loop flat_map]. rewrite !app_nil_r. unfold formats_for.
  rewrite lower_app, lower_idem. cbn [dotted]. rewrite <- lower_app. reflexivity.
Qed.

Lemma lstrip_dot_id s t : s <> "" -> char_in "." s = false -> lstrip_dot (s ++ t) = (s ++ t)%string.
Proof.
  destruct s as [|a s]; [congruence|]. intros _ H. cbn [char_in] in H. apply orb_false_iff in H.
  destruct H as [H _]. cbn. destruct a as [[] [] [] [] [] [] [] []]; try reflexivity. discriminate.
Qed.

Lemma ends_with_dot_app s t : t <> "" -> ends_with_dot (s ++ t) = ends_with_dot t.
Proof.
  intros Ht. induction s as [|a s IH]; [reflexivity|].
  cbn [append ends_with_dot]. destruct (s ++ t)%string eqn:E.
  - destruct s; [cbn in E; congruence|discriminate].
  - exact IH.
Qed.

Lemma ends_with_dot_nodot s : char_in "." s = false -> ends_with_dot s = false.
Proof.
  induction s as [|a s IH]; auto. cbn [char_in]. intros H. apply orb_false_iff in H.
  destruct H as [H1 H2]. destruct s; [cbn|].
  - now rewrite Ascii.eqb_sym.
  - now apply IH.
Qed.

Lemma dotted_join stem parts :
  join "." (stem :: parts) = (stem ++ dotted parts)%string.
Proof.
  revert stem; induction parts as [|x parts IH]; intros stem.
  - cbn. now rewrite str_app_nil_r.
  - rewrite join_cons by discriminate. rewrite IH. cbn [dotted].
    change ("." ++ x ++ dotted parts)%string with (String "." (x ++ dotted parts)). reflexivity.
Qed.

Lemma ends_with_dot_dotted parts : parts <> [] -> last parts "" <> "" ->
  Forall (fun p => char_in "." p = false) parts -> ends_with_dot (dotted parts) = false.
Proof.
  intros Hne Hl Hf. induction Hf as [|x parts Hx Hf IH]; [congruence|].
  destruct parts as [|y parts].
  - cbn [dotted last] in *. rewrite str_app_nil_r. rewrite ends_with_dot_app by auto.
    now apply ends_with_dot_nodot.
  - cbn [dotted] in *. rewrite ends_with_dot_app.
    + rewrite ends_with_dot_app.
      * apply IH; [discriminate|exact Hl].
      * discriminate.
    + destruct x; discriminate.
Qed.

Lemma suffixes_join stem parts :
  stem <> "" -> char_in "." stem = false -> Forall (fun p => char_in "." p = false) parts ->
  parts <> [] -> last parts "" <> "" ->
  suffixes (join "." (stem :: parts)) = map (fun x => String "." x) parts.
Proof.
  intros H1 H2 H3 H4 H5. unfold suffixes.
  assert (E : ends_with_dot (join "." (stem :: parts)) = false).
  { rewrite dotted_join, ends_with_dot_app.
    - now apply ends_with_dot_dotted.
    - destruct parts; [congruence|discriminate]. }
  rewrite E. f_equal. rewrite dotted_join, lstrip_dot_id by auto. rewrite <- dotted_join.
  change "." with (String "." "") at 1. rewrite split_join_char; [reflexivity|discriminate|].
  cbn [forallb]. rewrite H2. cbn [negb andb]. apply forallb_forall. rewrite Forall_forall in H3.
  intros x Hx. now rewrite H3.
Qed.

Lemma filetypes_from_path_spec {R W} (r : registry R W) stem parts :
  stem <> "" -> char_in "." stem = false -> Forall (fun p => char_in "." p = false) parts ->
  parts <> [] -> last parts "" <> "" ->
  filetypes_from_path r (join "." (stem :: parts)) =
  match flat_map (fun t => formats_for (ext_map r) (lower (dotted t))) (tails parts) with
  | [] => Err ReadError
  | l => Ok l
  end.
Proof.
  intros. unfold filetypes_from_path. rewrite suffixes_join by auto.
  now rewrite filetypes_loop_tails.
Qed.

(** ** C14 *)
Lemma check_block_ok b :
  check_block b = Ok tt <->
  (forall n, dget (wtype b) num_nodes_per_cell = Some n -> nth_error (wshape b) 1 = Some n).
Proof.
  unfold check_block. destruct (dget (wtype b) num_nodes_per_cell) as [n|].
  - destruct (nth_error (wshape b) 1) as [w|].
    + destruct (Nat.eqb_spec w n) as [->|Hne].
      * split; [|reflexivity]. intros _ k H. injection H as <-. reflexivity.
      * split; [discriminate|]. intros H. specialize (H n eq_refl). congruence.
    + split; [discriminate|]. intros H. specialize (H n eq_refl). congruence.
  - split; [|reflexivity]. discriminate.
Qed.

Lemma check_blocks_ok bs :
  check_blocks bs = Ok tt <->
  (forall b n, In b bs -> dget (wtype b) num_nodes_per_cell = Some n -> nth_error (wshape b) 1 = Some n).
Proof.
  induction bs as [|b bs IH]; cbn; [tauto|].
  destruct (check_block b) as [[]|e] eqn:E; cbn.
  - rewrite IH. pose proof (proj1 (check_block_ok b) E) as E'. split.
    + intros H b' n [<-|Hin] Hn; [now apply E'|now apply H].
    + intros H b' n Hin. apply H. now right.
  - split; [discriminate|]. intros H. assert (check_block b = Ok tt); [|congruence].
    apply check_block_ok. intros n. apply H. now left.
Qed.

Lemma write_ok {R W} (r : registry R W) t fmt bs w :
  write r t fmt bs = Ok w <->
  exists f, write_format r t fmt = Ok (Some f) /\ dget f (writer_map r) = Some w /\
    (forall b n, In b bs -> dget (wtype b) num_nodes_per_cell = Some n -> nth_error (wshape b) 1 = Some n).
Proof.
  unfold write. destruct (write_format r t fmt) as [[f|]|e]; cbn.
  - destruct (dget f (writer_map r)) as [w'|] eqn:E.
    + destruct (check_blocks bs) as [[]|e] eqn:Ec; cbn.
      * split.
        -- intros H. injection H as <-. exists f. split; auto. split; auto. now apply check_blocks_ok.
        -- intros (f' & H & H2 & _). injection H as <-. congruence.
      * split; [discriminate|]. intros (f' & _ & _ & H). apply check_blocks_ok in H. congruence.
    + split; [discriminate|]. intros (f' & H & H2 & _). injection H as <-. congruence.
  - split; [discriminate|]. intros (f' & H & _). discriminate.
  - split; [discriminate|]. intros (f' & H & _). discriminate.
Qed.

(** A malformed two-dimensional block is reported as WriteError. *)
Lemma check_blocks_malformed bs :
  (forall b, In b bs -> 2 <= length (wshape b)) ->
  (exists b n, In b bs /\ dget (wtype b) num_nodes_per_cell = Some n /\ nth_error (wshape b) 1 <> Some n) ->
  check_blocks bs = Err WriteError.
Proof.
  intros H2 (b & n & Hin & Hn & Hw). induction bs as [|b0 bs IH]; [destruct Hin|]. cbn.
  destruct (check_block b0) as [[]|e] eqn:E; cbn.
  - apply IH; [intros; apply H2; now right|]. destruct Hin as [->|]; auto.
    exfalso. pose proof (proj1 (check_block_ok b) E) as E'. auto.
  - revert E. unfold check_block. destruct (dget (wtype b0) num_nodes_per_cell); [|discriminate].
    destruct (nth_error (wshape b0) 1) eqn:En.
    + destruct (Nat.eqb n1 n0); congruence.
    + apply nth_error_None in En. specialize (H2 b0 (or_introl eq_refl)). lia.
Qed.
