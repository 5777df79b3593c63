(** Proofs about the formats of file names. *)
From Coq Require Import Lia.
From Verif.Lib Require Import Base Facts Text TextFacts Lines Bytes File.
From Verif.Model Require Import Core Helpers Ansys Cli.
From Verif.Spec Require Import Formats.
From Verif.Proofs Require Import Helpers Cli.
Open Scope list_scope.

(** ** Case *)
Lemma lower_of_upper a : lower_ascii a = lower_ascii (ascii_of_nat (upper_code (nat_of_ascii a))).
Proof. destruct a as [b0 b1 b2 b3 b4 b5 b6 b7]. destruct b0, b1, b2, b3, b4, b5, b6, b7; vm_compute; reflexivity. Qed.
Lemma case_lower_ascii a b : upper_code (nat_of_ascii a) = upper_code (nat_of_ascii b) -> lower_ascii a = lower_ascii b.
Proof. intros H. now rewrite lower_of_upper, H, <- lower_of_upper. Qed.
Lemma case_lower s : forall t, same_but_case s t -> lower s = lower t.
Proof.
  induction s as [|a s IH]; intros [|b t]; cbn [same_but_case]; try contradiction; [reflexivity|]. intros [H1 H2]. cbn [lower].
  now rewrite (case_lower_ascii a b H1), (IH _ H2).
Qed.
Lemma case_dot a : upper_code (nat_of_ascii a) = upper_code (nat_of_ascii ".") -> a = "."%char.
Proof.
  intros H. rewrite <- (ascii_nat_embedding a). change (upper_code (nat_of_ascii ".")) with 46 in H. unfold upper_code in H.
  destruct (_ && _)%bool eqn:E in H.
  - apply andb_prop in E. destruct E as [E1 E2]. apply Nat.leb_le in E1, E2. pose proof (nat_ascii_bounded a).
    assert (nat_of_ascii a = 78 \/ nat_of_ascii a = 46) as [K|K] by lia; rewrite K in *; [lia|reflexivity].
  - now rewrite H.
Qed.

(** ** Suffixes *)
Lemma lstrip_app stem r : ~ only_dots stem -> lstrip_dot (stem ++ r) = (lstrip_dot stem ++ r)%string.
Proof.
  induction stem as [|a s IH]; intros H; [elim H; exact I|]. destruct (Ascii.eqb_spec a ".") as [->|Hn].
  - cbn [append lstrip_dot]. apply IH. intros H'. apply H. cbn. auto.
  - assert (E : forall x, lstrip_dot (String a x) = String a x).
    { intros x. cbn [lstrip_dot]. destruct a as [b0 b1 b2 b3 b4 b5 b6 b7]. destruct b0, b1, b2, b3, b4, b5, b6, b7; try reflexivity. now elim Hn. }
    cbn [append]. now rewrite !E.
Qed.
Lemma split_char_app2 c x : forall s, split_char c (x ++ String c s)%string = split_char c x ++ split_char c s.
Proof.
  induction x as [|a x IH]; intros s.
  - cbn [append split_char]. now rewrite Ascii.eqb_refl.
  - cbn [append split_char]. rewrite IH. destruct (Ascii.eqb a c); [reflexivity|].
    destruct (split_char c x) eqn:E; [now elim (split_char_nonempty c x)|reflexivity].
Qed.
Lemma ends_with_dot_app s t : t <> ""%string -> ends_with_dot (s ++ t) = ends_with_dot t.
Proof.
  intros Ht. induction s as [|a s IH]; [reflexivity|]. cbn [append ends_with_dot].
  destruct (s ++ t)%string eqn:E; [destruct s; [cbn in E; congruence|discriminate]|exact IH].
Qed.
Lemma ends_with_dot_plain t : char_in "." t = false -> ends_with_dot t = false.
Proof.
  induction t as [|a t IH]; [reflexivity|]. cbn [char_in ends_with_dot]. intros H. apply Bool.orb_false_iff in H. destruct H as [H1 H2].
  destruct t; [|now apply IH]. destruct (Ascii.eqb_spec a "."); [|reflexivity]. subst a. discriminate.
Qed.
Lemma tl_app {A} (l r : list A) : l <> [] -> tl (l ++ r) = tl l ++ r.
Proof. destruct l; [congruence|reflexivity]. Qed.

(** One more extension at the end of a name *)
Lemma suffixes_one stem t : ~ only_dots stem -> char_in "." t = false -> t <> ""%string ->
  exists pre, Forall dotted_ext pre /\ suffixes (stem ++ String "." t) = pre ++ [String "." t].
Proof.
  intros H1 H2 H3. unfold suffixes. rewrite ends_with_dot_app by discriminate.
  assert (E : ends_with_dot (String "." t) = false).
  { cbn [ends_with_dot]. destruct t; [congruence|]. apply ends_with_dot_plain. exact H2. }
  rewrite E, lstrip_app, split_char_app2, (split_char_single "." t) by assumption.
  rewrite tl_app by apply split_char_nonempty. rewrite map_app. eexists. split; [|reflexivity].
  apply Forall_forall. intros x Hx. apply in_map_iff in Hx. destruct Hx as (y & <- & _). now exists y.
Qed.
Lemma suffixes_two stem t u : ~ only_dots stem -> char_in "." t = false -> char_in "." u = false -> u <> ""%string ->
  exists pre, Forall dotted_ext pre /\ suffixes (stem ++ String "." (t ++ String "." u)) = pre ++ [String "." t; String "." u].
Proof.
  intros H1 H2 H3 H4. unfold suffixes. rewrite ends_with_dot_app by discriminate.
  assert (E : ends_with_dot (String "." (t ++ String "." u)) = false).
  { change (String "." (t ++ String "." u)) with ((String "." t) ++ String "." u)%string. rewrite ends_with_dot_app by discriminate.
    cbn [ends_with_dot]. destruct u; [congruence|]. apply ends_with_dot_plain. exact H3. }
  rewrite E, lstrip_app, !split_char_app2, (split_char_single "." t), (split_char_single "." u) by assumption.
  rewrite tl_app by apply split_char_nonempty. rewrite map_app. eexists. split; [|reflexivity].
  apply Forall_forall. intros x Hx. apply in_map_iff in Hx. destruct Hx as (y & <- & _). now exists y.
Qed.

(** ** Lookup *)
Section Lookup.
Variable m : dict (list string).
Hypothesis Hm : forall k l, dget k m = Some l -> forall e, In e (dot_tails k) -> dget e m = None.
Lemma loop_one pre e l : Forall dotted_ext pre -> dotted_ext (lower e) -> dget (lower e) m = Some l ->
  filetypes_loop m "" (rev (pre ++ [e])) = l.
Proof.
  intros H1 H2 H3. rewrite rev_unit. cbn [filetypes_loop]. rewrite str_app_nil_r, H3.
  change (lower e) with ("" ++ lower e)%string.
  rewrite (loop_after m Hm (rev pre) "" (lower e) l); [apply app_nil_r|now apply Forall_rev|exact H2|apply lower_idem|exact H3].
Qed.
Lemma loop_two pre d e l : Forall dotted_ext pre -> dotted_ext (lower d) -> dget (lower e) m = None -> dget (lower (d ++ e)) m = Some l ->
  filetypes_loop m "" (rev (pre ++ [d; e])) = l.
Proof.
  intros H1 H2 H0 H3. rewrite rev_app_distr. cbn [rev app filetypes_loop]. rewrite str_app_nil_r, H0.
  assert (E : lower (d ++ lower e) = lower (d ++ e)) by (rewrite !lower_app, lower_idem; reflexivity).
  rewrite E, H3. cbn [app].
  change (lower (d ++ e)) with ("" ++ lower (d ++ e))%string.
  rewrite (loop_after m Hm (rev pre) "" (lower (d ++ e)) l); [apply app_nil_r|now apply Forall_rev| |apply lower_idem|exact H3].
  rewrite lower_app. now apply dotted_app.
Qed.
End Lookup.

(** ** Names with a documented extension *)
(** An extension of one or two parts: [parts] is None or the first part *)
Definition ext_shape (e : string) : bool :=
  match e with
  | String "."%char t =>
      match split_char "." t with
      | [x] => negb (String.eqb x "")
      | [x; y] => negb (String.eqb y "")
      | _ => false
      end
  | _ => false
  end.
Lemma case_split t : forall e, same_but_case e t ->
  Forall2 same_but_case (split_char "." e) (split_char "." t).
Proof.
  induction t as [|b t IH]; intros [|a e]; cbn [same_but_case]; try contradiction.
  - intros _. constructor; [exact I|constructor].
  - intros [H1 H2]. specialize (IH e H2). cbn [split_char].
    destruct (Ascii.eqb_spec b ".") as [->|Hb].
    + apply case_dot in H1. subst a. rewrite Ascii.eqb_refl. constructor; [exact I|exact IH].
    + destruct (Ascii.eqb_spec a ".") as [->|Ha]; [symmetry in H1; apply case_dot in H1; congruence|].
      inversion IH as [|x y xs ys Hx Hxs E1 E2].
      * constructor; [cbn; auto|constructor].
      * constructor; [cbn; auto|exact Hxs].
Qed.
Lemma join_split c s : join (String c "") (split_char c s) = s.
Proof.
  induction s as [|a s IH]; [reflexivity|]. cbn [split_char]. destruct (Ascii.eqb_spec a c) as [->|].
  - destruct (split_char c s) eqn:E; [now elim (split_char_nonempty c s)|]. rewrite join_cons by discriminate. now rewrite IH.
  - destruct (split_char c s) as [|x xs] eqn:E; [now elim (split_char_nonempty c s)|].
    rewrite <- IH. destruct xs; reflexivity.
Qed.
Lemma split_no_char c s x : In x (split_char c s) -> char_in c x = false.
Proof.
  revert x. induction s as [|a s IH]; intros x; cbn [split_char].
  - intros [<-|[]]. reflexivity.
  - destruct (Ascii.eqb a c) eqn:E.
    + intros [<-|H]; [reflexivity|auto].
    + destruct (split_char c s) as [|y ys] eqn:Es; [now elim (split_char_nonempty c s)|].
      intros [<-|H]; [|apply IH; now right]. cbn [char_in]. rewrite (IH y (or_introl eq_refl)).
      rewrite Ascii.eqb_sym in E || idtac. rewrite Bool.orb_false_r. first [exact E | rewrite Ascii.eqb_sym; exact E].
Qed.

Definition lookup_ok (d : dict (list string)) (x : string * list string * string) : bool :=
  let '(e, l, _) := x in
  ext_shape e && String.eqb (lower e) e &&
  match dget e d with Some l' => if list_eq_dec string_dec l l' then true else false | None => false end &&
  match split_char "." (match e with String _ t => t | _ => "" end) with
  | [_; y] => String.eqb (lower y) y && match dget (String "." y) d with None => true | Some _ => false end
  | _ => true end.
Lemma lookup_formats d (Hm : forall k l, dget k d = Some l -> forall e, In e (dot_tails k) -> dget e d = None) name e l w :
  lookup_ok d (e, l, w) = true -> has_extension name e -> filetypes_loop d "" (rev (suffixes name)) = l.
Proof.
  intros G (stem & e' & -> & Hs & Hc).
  unfold lookup_ok in G. apply andb_prop in G. destruct G as [G G4]. apply andb_prop in G. destruct G as [G G3].
  apply andb_prop in G. destruct G as [G1 G2]. apply String.eqb_eq in G2.
  destruct (dget e d) as [l'|] eqn:El; [|discriminate G3]. destruct (list_eq_dec string_dec l l') as [<-|]; [|discriminate G3].
  pose proof (case_lower _ _ Hc) as HL. rewrite G2 in HL.
  destruct e as [|a t]; [discriminate G1|]. destruct e' as [|a' t']; [contradiction|]. cbn [same_but_case] in Hc. destruct Hc as [Ha Hc].
  assert (Hdot : a = "."%char).
  { unfold ext_shape in G1. destruct a as [b0 b1 b2 b3 b4 b5 b6 b7]. destruct b0, b1, b2, b3, b4, b5, b6, b7; try discriminate G1. reflexivity. }
  subst a. apply case_dot in Ha. subst a'. cbn [ext_shape] in G1.
  pose proof (case_split _ _ Hc) as HS. pose proof (split_no_char "." t') as HN. pose proof (join_split "." t') as HJ.
  destruct (split_char "." t) as [|x [|y [|]]]; try discriminate G1.
  - inversion HS as [|x' ? ? ? Hx Hnil E1 E2]. inversion Hnil as [E3|]; subst. rewrite <- E1 in HN, HJ. assert (HJ' : x' = t') by (rewrite <- HJ; reflexivity). subst x'.
    destruct (suffixes_one stem t' Hs) as (pre & Hp & E); [apply HN; now left| |].
    { intros ->. destruct x; [discriminate G1|contradiction]. }
    rewrite E, (loop_one d Hm pre _ l); [reflexivity|exact Hp|rewrite HL; now exists t|now rewrite HL].
  - inversion HS as [|x' ? ? ? Hx H2 E1 E2]. inversion H2 as [|y' ? ? ? Hy Hnil E3 E4]. inversion Hnil; subst.
    rewrite <- E1 in HN, HJ. assert (HJ' : t' = (x' ++ String "." y')%string) by (rewrite <- HJ; reflexivity). clear HJ. subst t'.
    destruct (suffixes_two stem x' y' Hs) as (pre & Hp & E); [apply HN; now left|apply HN; right; now left| |].
    { intros ->. destruct y; [discriminate G1|contradiction]. }
    rewrite E, (loop_two d Hm pre _ _ l); [reflexivity|exact Hp|eexists; reflexivity| |].
    + cbn [lower]. change (lower_ascii ".") with "."%char. rewrite (case_lower _ _ Hy).
      apply andb_prop in G4. destruct G4 as [G4 G5]. apply String.eqb_eq in G4. rewrite G4.
      destruct (dget (String "." y) d); [discriminate G5|reflexivity].
    + change (String "." x' ++ String "." y')%string with (String "." (x' ++ String "." y')). now rewrite HL.
Qed.
Lemma documented_ok : forallb (fun x => lookup_ok default_exts x && negb (Nat.eqb (length (snd (fst x))) 0)) documented = true.
Proof. vm_compute. reflexivity. Qed.

Lemma documented_formats {R} (rd : string -> R) name e l w : In (e, l, w) documented -> has_extension name e ->
  filetypes_from_path (default_registry rd) name = Ok l.
Proof.
  intros Hin Hn. pose proof documented_ok as G. rewrite forallb_forall in G. specialize (G _ Hin). clear Hin.
  apply andb_prop in G. destruct G as [G1 G2]. cbn [fst snd] in G2.
  unfold filetypes_from_path. rewrite default_ext_map.
  rewrite (lookup_formats default_exts (fun k l H => proj1 (default_get k l H)) name e l w G1 Hn).
  destruct l; [discriminate G2|reflexivity].
Qed.
