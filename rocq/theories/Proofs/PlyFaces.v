(** PLY files: cut headers, properties of faces. *)
From Coq Require Import ZArith NArith List String Ascii Bool Lia ZifyBool ZifyNat.
From Verif.Lib Require Import Base Facts Text TextFacts Lines LinesFacts Runs Bytes File Group.
From Verif.Model Require Import Core Gmsh22 Port Ply PlyFile.
From Verif.Spec Require Import Core Blocks Surface PlyFile.
From Verif.Proofs Require Import Port Blocks Obj Ply PlyFile.
Import ListNotations.
Open Scope list_scope.

(** ** Cut headers *)
Lemma next_line_nil fuel : next_line fuel [] = Err OutOfFuel.
Proof. induction fuel as [|k IH]; [reflexivity|]. cbn [next_line line1 hd tl]. exact IH. Qed.
Lemma next_line_blank fuel : next_line fuel [""%string] = Err OutOfFuel.
Proof. destruct fuel as [|k]; [reflexivity|]. cbn [next_line line1 hd tl]. apply next_line_nil. Qed.
(** Either the line is found before the cut, or the cut file has none *)
Lemma next_line_cut A : forall fuel B l r, next_line fuel (A ++ B) = Ok (l, r) ->
  (forall fuel', next_line fuel' (A ++ [""%string]) = Err OutOfFuel) \/
  (exists A', r = A' ++ B /\ (exists x, In x A /\ l = strip x) /\ incl A' A /\
     forall fuel', next_line fuel' (A ++ [""%string]) = Ok (l, A' ++ [""%string]) \/ next_line fuel' (A ++ [""%string]) = Err OutOfFuel).
Proof.
  induction A as [|a A IH]; intros fuel B l r H.
  - left. apply next_line_blank.
  - destruct fuel as [|k]; [discriminate H|]. cbn [app next_line line1 hd tl] in H.
    destruct ((String.eqb (strip a) "" || String.prefix "comment" (strip a))%bool) eqn:E.
    + destruct (IH k B l r H) as [HL|(A' & -> & (x & Hx & ->) & Hi & HF)].
      * left. intros [|k']; [reflexivity|]. cbn [app next_line line1 hd tl]. rewrite E. apply HL.
      * right. exists A'. split; [reflexivity|]. split; [exists x; split; [now right|reflexivity]|]. split; [intros y Hy; right; now apply Hi|].
        intros [|k']; [now right|]. cbn [app next_line line1 hd tl]. rewrite E. apply HF.
    + injection H as <- <-. right. exists A. split; [reflexivity|]. split; [exists a; split; [now left|reflexivity]|].
      split; [intros y Hy; now right|]. intros [|k']; [now right|]. cbn [app next_line line1 hd tl]. rewrite E. now left.
Qed.
Definition no_end (A : list string) : Prop := forall x, In x A -> strip x <> "end_header"%string.
Lemma read_header_cut : forall fuel st line A B h out, no_end A -> line <> "end_header"%string ->
  read_header fuel st line (A ++ B) h = Ok out -> forall fuel', read_header fuel' st line (A ++ [""%string]) h = Err OutOfFuel.
Proof.
  induction fuel as [|k IH]; intros st line A B h out HA Hl H fuel'; [discriminate H|].
  destruct fuel' as [|k']; [reflexivity|].
  assert (Hgo : forall st' h', (do r <- next_line (S k) (A ++ B); read_header k st' (fst r) (snd r) h') = Ok out ->
                 (do r <- next_line (S k') (A ++ [""%string]); read_header k' st' (fst r) (snd r) h') = Err OutOfFuel).
  { intros st' h' H'. destruct (next_line (S k) (A ++ B)) as [[l r]|] eqn:E; [|discriminate H']. cbn [bind fst snd] in H'.
    destruct (next_line_cut A _ _ _ _ E) as [HL|(A' & -> & (x & Hx & ->) & Hi & HF)]; [now rewrite HL|].
    destruct (HF (S k')) as [E'|E']; rewrite E'; [|reflexivity]. cbn [bind fst snd].
    apply (IH st' (strip x) A' B h' out); [intros y Hy; apply HA; now apply Hi|now apply HA|exact H']. }
  cbn [read_header] in H |- *. cbv zeta in H |- *.
  assert (Hne : String.eqb line "end_header" = false) by now apply String.eqb_neq.
  rewrite Hne in *.
  destruct st; destruct (String.prefix "property" line);
    repeat match goal with
    | H : (if ?c then _ else _) = Ok _ |- _ => destruct c
    | H : (do p <- ?c; _) = Ok _ |- (do p <- ?c; _) = _ => destruct c as [?p|]; [cbn [bind] in H |- *|discriminate H]
    | H : match ?c with Some _ => _ | None => _ end = Ok _ |- match ?c with Some _ => _ | None => _ end = _ => destruct c
    | H : Err _ = Ok _ |- _ => discriminate H
    | p : (string * string * string)%type |- _ => destruct p as [[? ?] ?]
    end; try (apply Hgo; exact H).
Qed.

Theorem ply_cut (nk : numbers) A rest fuel o : A <> [] -> Forall one_line A -> no_end A -> read_ply nk fuel (text_bytes A ++ rest) = Ok o ->
  forall fuel', read_ply nk fuel' (text_bytes A) = Err OutOfFuel.
Proof.
  intros Hne H1 HA H fuel'. unfold read_ply in *. rewrite to_lines_text in H by exact H1.
  rewrite <- (app_nil_r (text_bytes A)), to_lines_text by exact H1. cbn [to_lines] in *.
  change (to_lines []) with [""%string] in *.
  destruct A as [|a A]; [congruence|]. cbn [app line1 hd tl] in *.
  destruct (negb (String.eqb (strip a) "ply")); [discriminate H|].
  assert (HA' : no_end A) by (intros x Hx; apply HA; now right).
  destruct (next_line fuel (A ++ to_lines rest)) as [[f r]|] eqn:E; [|discriminate H]. cbn [bind fst snd] in H.
  destruct (next_line_cut A _ _ _ _ E) as [HL|(A1 & -> & (x & Hx & ->) & Hi & HF)]; [now rewrite HL|].
  destruct (HF fuel') as [E'|E']; rewrite E'; [|reflexivity]. cbn [bind fst snd].
  match type of H with (do mode <- ?c; _) = _ => destruct c as [mode|]; [|discriminate H] end. cbn [bind] in *.
  assert (HA1 : no_end A1) by (intros y Hy; apply HA'; now apply Hi).
  destruct (next_line fuel (A1 ++ to_lines rest)) as [[l r]|] eqn:E2; [|discriminate H]. cbn [bind fst snd] in H.
  destruct (next_line_cut A1 _ _ _ _ E2) as [HL|(A2 & -> & (y & Hy & ->) & Hi2 & HF2)]; [now rewrite HL|].
  destruct (HF2 fuel') as [E3|E3]; rewrite E3; [|reflexivity]. cbn [bind fst snd].
  destruct (read_header fuel Outside (strip y) (A2 ++ to_lines rest) h0) as [hr|] eqn:E4; [|discriminate H].
  assert (HA2 : no_end A2) by (intros z Hz; apply HA1; now apply Hi2).
  now rewrite (read_header_cut fuel Outside (strip y) A2 (to_lines rest) h0 hr HA2 (HA1 y Hy) E4 fuel').
Qed.

(** ** Binary files with other properties of faces *)
Lemma buffers_scalar big nf : forall props b cells others out, read_face_buffers big nf props b cells others true = Ok out -> snd out = true.
Proof.
  induction props as [|[name ft] ps IH]; intros b cells others out H; [now injection H as <-|]. cbn [read_face_buffers] in H.
  destruct ft as [t|ct vt].
  - destruct (dget t ply_binary_table); [cbn [of_option bind] in H|discriminate H]. destruct (frombuffer _ _) as [[|x xs]|]; try discriminate H. eauto.
  - destruct (dget ct ply_binary_table); [cbn [of_option bind] in H|discriminate H]. destruct (dget vt ply_binary_table); [cbn [of_option bind] in H|discriminate H].
    destruct (int_type s); [cbn [of_option bind] in H|discriminate H]. destruct (int_type s0); [cbn [of_option bind] in H|discriminate H].
    destruct (read_binary_list _ _ _ _ _) as [r|]; [cbn [bind] in H|discriminate H]. destruct (String.eqb name "vertex_indices"); eauto.
Qed.
Lemma buffers_with_scalar big nf name t : forall props b cells others sc out, In (name, Scalar t) props ->
  read_face_buffers big nf props b cells others sc = Ok out -> snd out = true.
Proof.
  induction props as [|[n ft] ps IH]; intros b cells others sc out Hin H; [destruct Hin|]. cbn [read_face_buffers] in H.
  destruct ft as [t'|ct vt].
  - destruct (dget t' ply_binary_table); [cbn [of_option bind] in H|discriminate H]. destruct (frombuffer _ _) as [[|x xs]|]; try discriminate H.
    now apply buffers_scalar in H.
  - destruct Hin as [Hin|Hin]; [discriminate Hin|].
    destruct (dget ct ply_binary_table); [cbn [of_option bind] in H|discriminate H]. destruct (dget vt ply_binary_table); [cbn [of_option bind] in H|discriminate H].
    destruct (int_type s); [cbn [of_option bind] in H|discriminate H]. destruct (int_type s0); [cbn [of_option bind] in H|discriminate H].
    destruct (read_binary_list _ _ _ _ _) as [r|]; [cbn [bind] in H|discriminate H]. destruct (String.eqb n "vertex_indices"); eauto.
Qed.
Theorem binary_scalar (nk : numbers) big h b o name t : In (name, Scalar t) (h_fprops h) -> read_binary nk big h b <> Ok o.
Proof.
  intros Hin H. unfold read_binary in H.
  repeat match type of H with
  | (do x <- ?c; _) = Ok _ => let E := fresh "E" in destruct c as [?|] eqn:E; [cbn [bind] in H|discriminate H]
  | (if ?c then Err _ else _) = Ok _ => destruct c; [discriminate H|]
  end.
  match goal with E : read_face_buffers _ _ _ _ _ _ _ = Ok ?p |- _ => apply (buffers_with_scalar _ _ name t) in E; [|exact Hin]; destruct p as [[cells others] sc]; cbn in E; subst sc end.
  discriminate H.
Qed.

(** ** Text files with numbers on faces *)
Lemma go_face_prop k t name rest h : In t (map fst ply_to_numpy) -> word name = true ->
  go (S k) InFace (property_line t name :: rest) h =
  go k InFace rest (Header (h_verts h) (h_faces h) (h_props h) (h_fprops h ++ [(name, Scalar t)])).
Proof.
  intros Ht Hn. assert (Hw : word t = true /\ String.prefix "property list" (property_line t name) = false).
  { cbn in Ht. repeat (destruct Ht as [<-|Ht]; [split; reflexivity|]). destruct Ht. }
  destruct Hw as [Hw Hp]. change (property_line t name) with (row_line ["property"; t; name]).
  rewrite go_row; [|cbn [forallb]; now rewrite Hn, Hw|discriminate|reflexivity].
  cbn [read_header]. change (String.prefix "property" (row_line ["property"; t; name])) with true.
  change (row_line ["property"; t; name]) with (property_line t name). rewrite Hp. cbv iota. rewrite property_ok by auto. reflexivity.
Qed.
Definition scalars (props : list (string * string)) : list (string * ftype) := map (fun p => (fst p, Scalar (snd p))) props.
Lemma go_face_props props : forall k rest h, Forall (fun p => word (fst p) = true /\ fst p <> "vertex_indices"%string /\ In (snd p) (map fst ply_to_numpy)) props ->
  go (length props + k) InFace (map (fun p => property_line (snd p) (fst p)) props ++ rest) h =
  go k InFace rest (Header (h_verts h) (h_faces h) (h_props h) (h_fprops h ++ scalars props)).
Proof.
  induction props as [|p props IH]; intros k rest h H.
  - cbn. rewrite app_nil_r. now destruct h.
  - inversion H as [|? ? (H1 & H2 & H3) Hps]; subst. cbn [length Nat.add map app]. rewrite go_face_prop by auto. rewrite IH by auto.
    cbn [h_verts h_faces h_props h_fprops scalars map]. now rewrite <- app_assoc.
Qed.

Lemma dget_mid {V} k (v : V) a b : ~ In k (map fst a) -> dget k (a ++ (k, v) :: b) = Some v.
Proof.
  induction a as [|[k' v'] a IH]; intros H; cbn [app dget].
  - now rewrite String.eqb_refl.
  - destruct (String.eqb_spec k k') as [->|_]; [elim H; now left|]. apply IH. intros Hin. apply H. now right.
Qed.
Lemma dset_mid {V} k (v v0 : V) a b : ~ In k (map fst a) -> dset k v (a ++ (k, v0) :: b) = a ++ (k, v) :: b.
Proof.
  induction a as [|[k' v'] a IH]; intros H; cbn [app dset].
  - now rewrite String.eqb_refl.
  - destruct (String.eqb_spec k k') as [->|_]; [elim H; now left|]. f_equal. apply IH. intros Hin. apply H. now right.
Qed.

Section Text.
Context {nk : numbers} (good : string -> nk -> Prop) (Hnum : exact_numbers nk good).
Notation groups := (list (nat * list nk)).
Definition code_of (t : string) : string := match dget t ply_to_numpy with Some c => c | None => "" end.
Definition value_texts (props : list (string * string)) (vs : list nk) : list string :=
  map (fun pv => num_text nk (code_of (snd (fst pv))) (snd pv)) (combine props vs).
Definition values_good (props : list (string * string)) (vs : list nk) : Prop :=
  Forall (fun pv => forall c, dget (snd (fst pv)) ply_to_numpy = Some c -> good c (snd pv)) (combine props vs).
Definition props_good (props : list (string * string)) : Prop :=
  Forall (fun p => word (fst p) = true /\ fst p <> "vertex_indices"%string /\ In (snd p) (map fst ply_to_numpy)) props.
Lemma known_type t : In t (map fst ply_to_numpy) -> exists c, dget t ply_to_numpy = Some c.
Proof. intros H. destruct (dget t ply_to_numpy) eqn:E; [eauto|]. apply dget_None in E. now elim E. Qed.

Definition step_values (n : nat) (gs : list groups) (vs : list nk) : list groups := map (fun gv => add_to nk n (snd gv) (fst gv)) (combine gs vs).
Lemma face_scalars n acc : forall props vs gs pre data i, props_good props -> values_good props vs ->
  length vs = length props -> length gs = length props -> NoDup (map fst pre ++ map fst props) ->
  (forall j t, nth_error (value_texts props vs) j = Some t -> nth_error data (i + j) = Some t) ->
  face_props nk (scalars props) data i (Some n) (acc, pre ++ combine (map fst props) gs) =
  Ok (acc, pre ++ combine (map fst props) (step_values n gs vs)).
Proof.
  induction props as [|[name t] props IH]; intros vs gs pre data i Hp Hv Hl Hg Hd Ht; [destruct gs; [|discriminate Hg]; destruct vs; [|discriminate Hl]; reflexivity|].
  destruct vs as [|v vs]; [discriminate Hl|]. destruct gs as [|g gs]; [discriminate Hg|].
  inversion Hp as [|? ? (H1 & H2 & H3) Hp']; subst. inversion Hv as [|? ? Hv1 Hv']; subst. cbn [fst snd] in *.
  destruct (known_type t H3) as (c & Hc). cbn [scalars map face_props fst snd].
  destruct (String.eqb_spec name "vertex_indices"); [contradiction|]. rewrite Hc. cbn [of_option bind].
  pose proof (Ht 0 _ eq_refl) as H0. rewrite Nat.add_0_r in H0. rewrite H0.
  assert (Hni : ~ In name (map fst pre)).
  { intros Hin. cbn [map] in Hd. apply NoDup_remove in Hd. destruct Hd as [_ Hd]. apply Hd. apply in_app_iff. now left. }
  cbn [combine fst snd]. rewrite dget_mid by exact Hni. cbn [of_option bind]. rewrite dset_mid by exact Hni.
  unfold code_of. cbn [fst snd]. rewrite Hc. rewrite (en_text _ _ Hnum) by now apply Hv1.
  change (map (fun p => (fst p, Scalar (snd p))) props) with (scalars props).
  replace (pre ++ (name, add_to nk n v g) :: combine (map fst props) gs) with ((pre ++ [(name, add_to nk n v g)]) ++ combine (map fst props) gs) by now rewrite <- app_assoc.
  rewrite (IH vs); auto.
  - rewrite <- app_assoc. reflexivity.
  - rewrite map_app, <- app_assoc. exact Hd.
  - intros j u Hj. replace (i + 1 + j) with (i + S j) by lia. now apply Ht.
Qed.

Definition face_tokens (props : list (string * string)) (f : cell * list nk) : list string :=
  str_of_nat (length (fst f)) :: map str_of_Z (fst f) ++ value_texts props (snd f).
Lemma value_texts_words props vs : props_good props -> values_good props vs -> forallb word (value_texts props vs) = true.
Proof.
  intros Hp Hv. unfold value_texts. apply forallb_forall. intros x Hx. apply in_map_iff in Hx. destruct Hx as (pv & <- & Hin).
  unfold values_good in Hv. rewrite Forall_forall in Hv. specialize (Hv pv Hin). destruct pv as [[name t] v]. apply in_combine_l in Hin.
  unfold props_good in Hp. rewrite Forall_forall in Hp. destruct (Hp _ Hin) as (_ & _ & H3). cbn [fst snd] in *.
  destruct (known_type t H3) as (c & Hc). unfold code_of. rewrite Hc. apply (en_word _ _ Hnum). now apply Hv.
Qed.
Lemma tokens_words props f : props_good props -> values_good props (snd f) -> forallb word (face_tokens props f) = true.
Proof.
  intros Hp Hv. unfold face_tokens. cbn [forallb]. rewrite word_str_of_nat, forallb_app, words_ints, value_texts_words by auto. reflexivity.
Qed.
Definition list_prop : string * ftype := ("vertex_indices"%string, ListOf "uint8" "int32").
Lemma face_row props f gs acc : props_good props -> values_good props (snd f) -> length (snd f) = length props -> length gs = length props ->
  NoDup (map fst props) ->
  face_props nk (list_prop :: scalars props) (face_tokens props f) 0 None (acc, combine (map fst props) gs) =
  Ok (add_ply_face acc (length (fst f)) (fst f), combine (map fst props) (step_values (length (fst f)) gs (snd f))).
Proof.
  intros Hp Hv Hl Hg Hd. cbn [face_props list_prop]. change (String.eqb "vertex_indices" "vertex_indices") with true. cbv iota.
  change (dget "uint8" ply_to_numpy) with (Some "u1"%string). change (dget "int32" ply_to_numpy) with (Some "i4"%string). cbn [of_option bind].
  cbn [face_tokens nth_error]. rewrite str_of_nat_Z, parse_Z_str_of_Z. cbn [of_option bind]. rewrite Nat2Z.id.
  cbn [Nat.add skipn]. change (match face_tokens props f with [] => [] | _ :: l => l end) with (map str_of_Z (fst f) ++ value_texts props (snd f)).
  rewrite firstn_app, map_length, Nat.sub_diag, firstn_O, app_nil_r, firstn_all2 by (rewrite map_length; lia).
  rewrite parse_ints_ok. cbn [bind fst snd].
  apply (face_scalars (length (fst f)) (add_ply_face acc (length (fst f)) (fst f)) props (snd f) gs []); auto.
  intros j t Hj. unfold face_tokens. replace (length (fst f) + 1 + j) with (S (length (fst f) + j)) by lia. cbn [nth_error].
  rewrite nth_error_app2 by (rewrite map_length; lia). rewrite map_length. replace (length (fst f) + j - length (fst f)) with j by lia. exact Hj.
Qed.

(** All faces *)
Definition all_values (props : list (string * string)) (faces : list (cell * list nk)) (gs : list groups) : list groups :=
  fold_left (fun gs f => step_values (length (fst f)) gs (snd f)) faces gs.
Definition faces_good (props : list (string * string)) (faces : list (cell * list nk)) : Prop :=
  Forall (fun f => length (snd f) = length props /\ values_good props (snd f)) faces.
Lemma face_rows props : props_good props -> NoDup (map fst props) -> forall faces rest acc gs, faces_good props faces -> length gs = length props ->
  read_face_rows nk (list_prop :: scalars props) (length faces) (map (fun f => row_line (face_tokens props f)) faces ++ rest) (acc, combine (map fst props) gs) =
  Ok (fold_left (fun a f => add_ply_face a (length (fst f)) (fst f)) faces acc, combine (map fst props) (all_values props faces gs)).
Proof.
  intros Hp Hd. induction faces as [|f faces IH]; intros rest acc gs H Hg; [reflexivity|].
  inversion H as [|? ? [Hl Hv] H']; subst. cbn [length read_face_rows map app line1 hd tl fold_left all_values].
  unfold row_line at 1. rewrite split_ws_join by now apply tokens_words. rewrite face_row by auto. cbn [bind].
  apply IH; [exact H'|]. unfold step_values. rewrite map_length, combine_length. lia.
Qed.
Lemma add_faces faces : forall acc, keyed acc ->
  fold_left (fun a (f : cell * list nk) => add_ply_face a (length (fst f)) (fst f)) faces (map (fun g => (corner_type (fst g), snd g)) acc) =
  map (fun g => (corner_type (fst g), snd g)) (fold_left (add_run Nat.eqb) (map (fun f => (length (fst f), fst f)) faces) acc).
Proof.
  induction faces as [|f faces IH]; intros acc Hk; [reflexivity|]. cbn [fold_left map].
  destruct (ply_acc acc (length (fst f)) (fst f) Hk eq_refl) as [E Hk']. rewrite E. now apply IH.
Qed.

(** The values of one property *)
Definition pairs_at (j : nat) (faces : list (cell * list nk)) : list (nat * nk) :=
  flat_map (fun f => match nth_error (snd f) j with Some v => [(length (fst f), v)] | None => [] end) faces.
Definition collect (l : list (nat * nk)) (g : groups) : groups := fold_left (fun g nv => add_to nk (fst nv) (snd nv) g) l g.
Lemma step_seq (H : nat -> groups) n : forall vs s, 
  step_values n (map H (seq s (length vs))) vs = map (fun j => match nth_error vs (j - s) with Some v => add_to nk n v (H j) | None => H j end) (seq s (length vs)).
Proof.
  unfold step_values. induction vs as [|v vs IH]; intros s; [reflexivity|]. cbn [length seq map combine fst snd]. rewrite Nat.sub_diag. cbn [nth_error]. f_equal.
  rewrite IH. apply map_ext_in. intros j Hj. apply in_seq in Hj. replace (j - s) with (S (j - S s)) by lia. reflexivity.
Qed.
Lemma all_values_ok props : forall faces (H : nat -> groups), faces_good props faces ->
  all_values props faces (map H (seq 0 (length props))) = map (fun j => collect (pairs_at j faces) (H j)) (seq 0 (length props)).
Proof.
  induction faces as [|f faces IH]; intros H Hf; [reflexivity|]. inversion Hf as [|? ? [Hl Hv] Hf']; subst. cbn [all_values fold_left].
  rewrite <- Hl at 1. rewrite step_seq. rewrite Hl. fold (all_values props faces (map (fun j => match nth_error (snd f) (j - 0) with Some v => add_to nk (length (fst f)) v (H j) | None => H j end) (seq 0 (length props)))).
  rewrite IH by exact Hf'. apply map_ext_in. intros j Hj. apply in_seq in Hj. rewrite Nat.sub_0_r. cbn [pairs_at flat_map].
  destruct (nth_error (snd f) j) as [v|]; reflexivity.
Qed.

(** Values in groups of neighbours *)
Lemma add_to_new n v (g : groups) : ~ In n (map fst g) -> add_to nk n v g = g ++ [(n, [v])].
Proof.
  induction g as [|[k vs] g IH]; intros H; [reflexivity|]. cbn [add_to app]. destruct (Nat.eqb_spec k n) as [->|_]; [elim H; now left|].
  f_equal. apply IH. intros Hin. apply H. now right.
Qed.
Lemma add_to_last n v vs (g : groups) : ~ In n (map fst g) -> add_to nk n v (g ++ [(n, vs)]) = g ++ [(n, vs ++ [v])].
Proof.
  induction g as [|[k ws] g IH]; intros H; cbn [app add_to].
  - now rewrite Nat.eqb_refl.
  - destruct (Nat.eqb_spec k n) as [->|_]; [elim H; now left|]. f_equal. apply IH. intros Hin. apply H. now right.
Qed.
Lemma collect_run n vs : forall ws (g : groups), ~ In n (map fst g) -> collect (map (pair n) vs) (g ++ [(n, ws)]) = g ++ [(n, ws ++ vs)].
Proof.
  induction vs as [|v vs IH]; intros ws g H; cbn [map collect fold_left fst snd]; [now rewrite app_nil_r|].
  rewrite add_to_last by exact H. fold (collect (map (pair n) vs) (g ++ [(n, ws ++ [v])])). rewrite IH by exact H. now rewrite <- app_assoc.
Qed.
Lemma collect_app a b g : collect (a ++ b) g = collect b (collect a g).
Proof. apply fold_left_app. Qed.
Lemma collect_groups (gs : groups) : forall g, Forall (fun x => snd x <> []) gs -> NoDup (map fst g ++ map fst gs) ->
  collect (flat_map (fun x => map (pair (fst x)) (snd x)) gs) g = g ++ gs.
Proof.
  induction gs as [|[n vs] gs IH]; intros g Hne Hd; [now rewrite app_nil_r|]. inversion Hne as [|? ? Hv Hne']; subst. cbn [fst snd] in *.
  cbn [flat_map fst snd]. rewrite collect_app. cbn [map] in Hd. cbn [fst] in Hd.
  assert (Hn : ~ In n (map fst g)) by (apply NoDup_remove in Hd; intros Hin; apply (proj2 Hd), in_app_iff; now left).
  destruct vs as [|v vs]; [congruence|]. cbn [map collect fold_left fst snd]. rewrite add_to_new by exact Hn.
  fold (collect (map (pair n) vs) (g ++ [(n, [v])])). rewrite collect_run by exact Hn. cbn [app]. rewrite IH; auto.
  - now rewrite <- app_assoc.
  - rewrite map_app, <- app_assoc. exact Hd.
Qed.
Lemma add_to_keys n v (g : groups) k : In k (map fst (add_to nk n v g)) <-> k = n \/ In k (map fst g).
Proof.
  induction g as [|[m ws] g IH]; [cbn; intuition|]. cbn [add_to]. destruct (Nat.eqb_spec m n) as [->|]; cbn [map fst In]; [intuition|]. rewrite IH. intuition.
Qed.
Lemma add_to_nodup n v (g : groups) : NoDup (map fst g) -> NoDup (map fst (add_to nk n v g)).
Proof.
  induction g as [|[m ws] g IH]; intros H; [cbn; repeat constructor; auto|]. inversion H as [|? ? H1 H2]; subst. cbn [add_to].
  destruct (Nat.eqb_spec m n) as [->|Hne]; cbn [map fst]; constructor; auto. rewrite add_to_keys. intros [E|Hin]; congruence.
Qed.
Lemma collect_keys l : forall g, NoDup (map fst g) -> NoDup (map fst (collect l g)) /\ incl (map fst (collect l g)) (map fst l ++ map fst g).
Proof.
  induction l as [|[n v] l IH]; intros g H; [split; [exact H|apply incl_refl]|]. cbn [collect fold_left fst snd].
  fold (collect l (add_to nk n v g)). destruct (IH (add_to nk n v g) (add_to_nodup n v g H)) as [H1 H2]. split; [exact H1|].
  intros k Hk. specialize (H2 k Hk). cbn [map fst app In]. apply in_app_iff in H2. rewrite in_app_iff. rewrite add_to_keys in H2. intuition.
Qed.

(** Blocks and groups *)
Lemma group_adj_map {V W} (h : V -> W) (l : list (nat * V)) :
  group_adj Nat.eqb (map (fun kv => (fst kv, h (snd kv))) l) = map (fun g => (fst g, map h (snd g))) (group_adj Nat.eqb l).
Proof.
  induction l as [|[k v] l IH]; [reflexivity|]. cbn [map fst snd group_adj]. rewrite IH.
  destruct (group_adj Nat.eqb l) as [|[k' vs] r]; [reflexivity|]. cbn [map fst snd]. destruct (Nat.eqb k k'); reflexivity.
Qed.
Definition face_groups (faces : list (cell * list nk)) : list (nat * list (cell * list nk)) := group_adj Nat.eqb (map (fun f => (length (fst f), f)) faces).
Lemma face_blocks_groups faces : face_blocks faces = map (fun g => Block (corner_type (fst g)) (map fst (snd g))) (face_groups faces).
Proof.
  unfold face_blocks, face_groups. 
  replace (map (fun f : cell * list nk => (corner_type (length (fst f)), fst f)) faces) with (map (fun f => (corner_type (length f), f)) (map fst faces)) by now rewrite map_map.
  rewrite <- width_blocks.
  replace (map (fun f : cell => (length f, f)) (map fst faces)) with (map (fun kv => (fst kv, fst (snd kv))) (map (fun f : cell * list nk => (length (fst f), f)) faces)) by (rewrite !map_map; reflexivity).
  rewrite group_adj_map, map_map. reflexivity.
Qed.
Lemma groups_items faces : flat_map (fun g => map (pair (fst g)) (snd g)) (face_groups faces) = map (fun f => (length (fst f), f)) faces.
Proof. apply group_adj_items. exact Nat.eqb_spec. Qed.
Lemma groups_some faces : Forall (fun g => snd g <> []) (face_groups faces).
Proof. apply group_adj_nonempty. Qed.
Lemma groups_in faces g f : In g (face_groups faces) -> In f (snd g) -> In f faces /\ length (fst f) = fst g.
Proof.
  intros Hg Hf. assert (H : In (fst g, f) (map (fun f : cell * list nk => (length (fst f), f)) faces)).
  { rewrite <- groups_items. apply in_flat_map. exists g. split; [exact Hg|]. apply in_map_iff. eauto. }
  apply in_map_iff in H. destruct H as (f' & E & Hin). injection E as E1 <-. auto.
Qed.
Lemma blocks_corners faces : map corners (face_blocks faces) = map fst (face_groups faces).
Proof.
  rewrite face_blocks_groups, map_map. apply map_ext_in. intros g Hg. unfold corners. cbn [bdata].
  pose proof (groups_some faces) as Hs. rewrite Forall_forall in Hs. specialize (Hs g Hg). destruct (snd g) as [|f fs] eqn:E; [congruence|]. cbn [map hd].
  apply (groups_in faces g f Hg). rewrite E. now left.
Qed.
Lemma pairs_groups j faces : pairs_at j faces = flat_map (fun x => map (pair (fst x)) (snd x)) (map (fun g => (fst g, values_at j (snd g))) (face_groups faces)).
Proof.
  transitivity (flat_map (fun nf : nat * (cell * list nk) => match nth_error (snd (snd nf)) j with Some v => [(fst nf, v)] | None => [] end) (map (fun f => (length (fst f), f)) faces)).
  { unfold pairs_at. rewrite !flat_map_concat_map, map_map. reflexivity. }
  rewrite <- groups_items. induction (face_groups faces) as [|[n fs] gs IH]; [reflexivity|]. cbn [flat_map map fst snd]. rewrite flat_map_app, IH. f_equal.
  unfold values_at. clear. induction fs as [|f fs IH]; [reflexivity|]. cbn [map flat_map fst snd]. rewrite map_app, IH. f_equal.
  destruct (nth_error (snd f) j); reflexivity.
Qed.
Lemma values_length j k fs : j < k -> Forall (fun f : cell * list nk => length (snd f) = k) fs -> length (values_at j fs) = length fs.
Proof.
  intros Hj H. induction H as [|f fs Hf H IH]; [reflexivity|]. cbn [values_at flat_map]. rewrite app_length. fold (values_at j fs). rewrite IH.
  destruct (nth_error (snd f) j) eqn:E; [reflexivity|]. apply nth_error_None in E. lia.
Qed.
Lemma values_concat j faces : values_at j faces = concat (map (fun g => values_at j (snd g)) (face_groups faces)).
Proof.
  assert (H : map snd (pairs_at j faces) = values_at j faces).
  { unfold pairs_at, values_at. induction faces as [|f faces IH]; [reflexivity|]. cbn [flat_map]. rewrite map_app, IH. f_equal. destruct (nth_error (snd f) j); reflexivity. }
  rewrite <- H, pairs_groups. clear H. induction (face_groups faces) as [|g gs IH]; [reflexivity|]. cbn [map flat_map concat fst snd]. rewrite map_app, IH. f_equal.
  rewrite map_map. cbn. apply map_id.
Qed.

Section Data.
Variables (props : list (string * string)) (faces : list (cell * list nk)) (j : nat).
Hypothesis Hf : faces_good props faces.
Hypothesis Hj : j < length props.
Lemma group_values g : In g (face_groups faces) -> length (values_at j (snd g)) = length (snd g).
Proof.
  intros Hg. apply (values_length j (length props) _ Hj). apply Forall_forall. intros f Hin. destruct (groups_in faces g f Hg Hin) as [Hin' _].
  unfold faces_good in Hf. rewrite Forall_forall in Hf. now apply Hf.
Qed.
Lemma data_groups : data_for (face_blocks faces) (values_at j faces) = map (fun g => values_at j (snd g)) (face_groups faces).
Proof.
  unfold data_for. rewrite values_concat, face_blocks_groups, map_map.
  replace (map (fun x => blen (Block (corner_type (fst x)) (map fst (snd x)))) (face_groups faces)) with (map (@length nk) (map (fun g => values_at j (snd g)) (face_groups faces))).
  - apply split_lens_concat.
  - rewrite map_map. apply map_ext_in. intros g Hg. unfold blen. cbn [bdata]. rewrite map_length. now apply group_values.
Qed.
Lemma collected : NoDup (map corners (face_blocks faces)) -> map snd (collect (pairs_at j faces) []) = data_for (face_blocks faces) (values_at j faces).
Proof.
  rewrite blocks_corners. intros Hd. rewrite pairs_groups, collect_groups.
  - cbn [app]. rewrite map_map. cbn. symmetry. apply data_groups.
  - apply Forall_map, Forall_forall. intros g Hg. cbn. intros E. pose proof (groups_some faces) as Hs. rewrite Forall_forall in Hs. apply (Hs g Hg).
    apply (f_equal (@length nk)) in E. rewrite group_values in E by exact Hg. destruct (snd g); [reflexivity|discriminate E].
  - cbn [map app]. rewrite map_map. exact Hd.
Qed.
Lemma lengths_ok : forallb (fun db => Nat.eqb (length (fst db)) (blen (snd db))) (combine (data_for (face_blocks faces) (values_at j faces)) (face_blocks faces)) = true.
Proof.
  rewrite data_groups, face_blocks_groups. apply forallb_forall. intros [d b] H.
  assert (H' : In (d, b) (map (fun g => (values_at j (snd g), Block (corner_type (fst g)) (map fst (snd g)))) (face_groups faces))).
  { clear - H. induction (face_groups faces) as [|g gs IH]; [destruct H|]. cbn [map combine] in H. destruct H as [H|H]; [left; exact H|right; auto]. }
  apply in_map_iff in H'. destruct H' as (g & E & Hg). injection E as <- <-. cbn [fst snd]. unfold blen. cbn [bdata]. rewrite map_length.
  apply Nat.eqb_eq. now apply group_values.
Qed.
Lemma collected_fails : ~ NoDup (map corners (face_blocks faces)) -> length (map snd (collect (pairs_at j faces) [])) <> length (face_blocks faces).
Proof.
  rewrite blocks_corners. intros Hd E. apply Hd. destruct (collect_keys (pairs_at j faces) [] (NoDup_nil _)) as [H1 H2].
  rewrite face_blocks_groups, !map_length in E.
  apply (NoDup_incl_NoDup H1); [rewrite !map_length; lia|].
  intros k Hk. specialize (H2 k Hk). rewrite app_nil_r in H2. apply in_map_iff in H2. destruct H2 as ([n v] & <- & Hin).
  rewrite pairs_groups in Hin. apply in_flat_map in Hin. destruct Hin as (x & Hx & Hin). apply in_map_iff in Hin. destruct Hin as (? & E2 & _). injection E2 as <- _.
  apply in_map_iff in Hx. destruct Hx as (g & <- & Hg). cbn [fst]. now apply in_map.
Qed.
End Data.

(** Whole files *)
Lemma init_ok props f : props_good props -> NoDup (map fst props) ->
  init_face_data nk (list_prop :: scalars props) (face_tokens props f) 0 [] = Ok (combine (map fst props) (map (fun _ => []) (seq 0 (length props)))).
Proof.
  intros Hp Hd. cbn [init_face_data list_prop]. change (String.eqb "vertex_indices" "vertex_indices") with true. cbv iota.
  cbn [face_tokens nth_error]. rewrite str_of_nat_Z, parse_Z_str_of_Z. cbn [of_option bind].
  assert (H : forall ps i (acc : dict groups) s, props_good ps -> NoDup (map fst acc ++ map fst ps) ->
     init_face_data nk (scalars ps) (face_tokens props f) i acc = Ok (acc ++ combine (map fst ps) (map (fun _ => []) (seq s (length ps))))).
  { clear. induction ps as [|[name t] ps IH]; intros i acc s Hp Hd; [cbn; now rewrite app_nil_r|]. inversion Hp as [|? ? (H1 & H2 & H3) Hp']; subst.
    cbn [scalars map init_face_data fst snd length seq combine]. cbn [fst] in H2. destruct (String.eqb_spec name "vertex_indices"); [contradiction|].
    rewrite dset_notin.
    2:{ intros Hin. cbn [map fst] in Hd. apply NoDup_remove in Hd. apply (proj2 Hd), in_app_iff. now left. }
    change (map (fun p => (fst p, Scalar (snd p))) ps) with (scalars ps). rewrite (IH _ _ (S s) Hp'); [now rewrite <- app_assoc|].
    rewrite map_app, <- app_assoc. exact Hd. }
  now rewrite (H props _ [] 0).
Qed.
Definition face_header (points : list (list nk)) (props : list (string * string)) (faces : list (cell * list nk)) : header :=
  Header (length points) (length faces) [("x", "double"); ("y", "double"); ("z", "double")]%string (list_prop :: scalars props).
Lemma next_line_word k w ls : String.eqb (strip w) "" = false -> String.prefix "comment" (strip w) = false -> next_line (S k) (w :: ls) = Ok (strip w, ls).
Proof. intros H1 H2. cbn [next_line line1 hd tl]. now rewrite H1, H2. Qed.
Theorem face_file_read points props faces fuel : readable good points props faces -> length props + 7 <= fuel ->
  read_ply nk fuel (text_bytes (face_file points props faces)) =
  check_mesh nk (PlyOut nk points [] (face_blocks faces) (map (fun jp => (fst (snd jp), map snd (collect (pairs_at (fst jp) faces) []))) (combine (seq 0 (length props)) props))).
Proof.
  intros H Hfu. destruct H as [Hs Hpts Hp Hd Ha Hf].
  assert (HG : faces_good props faces) by (eapply Forall_impl; [|exact Hf]; cbn; tauto).
  assert (HR : Forall (good_row good) (map (map (typed nk "f8")) points)).
  { apply Forall_map. eapply Forall_impl; [|exact Hpts]. intros p [_ Hg]. unfold good_row. apply Forall_map. eapply Forall_impl; [|exact Hg]. auto. }
  set (RL := map (fun r => row_line (texts r)) (map (map (typed nk "f8")) points)).
  set (FL := map (fun f => row_line (face_tokens props f)) faces).
  assert (EF : face_file points props faces =
    (["ply"; "format ascii 1.0"; ("element vertex " ++ str_of_nat (length points))%string] ++ prop_lines [("x", "double"); ("y", "double"); ("z", "double")] ++
     face_lines (Some (length faces, "int32")) ++ map (fun p => property_line (snd p) (fst p)) props ++ ["end_header"]) ++ RL ++ FL).
  { unfold face_file, RL, FL. rewrite !map_map. cbn [app face_lines prop_lines map fst snd]. do 8 f_equal. rewrite <- !app_assoc. f_equal. cbn [app]. f_equal. f_equal.
    apply map_ext. intros p. unfold row_line, texts. rewrite map_map. reflexivity. }
  assert (HL : Forall one_line (RL ++ FL)).
  { apply Forall_app. split; unfold RL, FL.
    - apply Forall_map. eapply Forall_impl; [|exact HR]. intros r Hg. apply one_line_row. now apply (texts_words good Hnum).
    - apply Forall_map. eapply Forall_impl; [|exact HG]. intros f [_ Hv]. apply one_line_row. now apply tokens_words. }
  assert (HH : Forall one_line (["ply"; "format ascii 1.0"; ("element vertex " ++ str_of_nat (length points))%string] ++ prop_lines [("x", "double"); ("y", "double"); ("z", "double")] ++
     face_lines (Some (length faces, "int32")) ++ map (fun p => property_line (snd p) (fst p)) props ++ ["end_header"])).
  { cbn [app prop_lines map face_lines fst snd]. do 2 (apply Forall_cons; [reflexivity|]).
    apply Forall_cons; [apply (one_line_row ["element"; "vertex"; str_of_nat (length points)]); cbn [forallb]; now rewrite word_str_of_nat|].
    do 3 (apply Forall_cons; [reflexivity|]).
    apply Forall_cons; [apply (one_line_row ["element"; "face"; str_of_nat (length faces)]); cbn [forallb]; now rewrite word_str_of_nat|].
    apply Forall_cons; [reflexivity|].
    apply Forall_app. split; [|repeat constructor]. apply Forall_map. eapply Forall_impl; [|exact Hp]. intros [name t] (H1 & H2 & H3). cbn [fst snd] in *.
    apply (one_line_row ["property"; t; name]). cbn [forallb]. rewrite H1.
    cbn in H3. repeat (destruct H3 as [<-|H3]; [reflexivity|]). destruct H3. }
  unfold read_ply. rewrite EF. unfold text_bytes. rewrite map_app, concat_app. fold (text_bytes (RL ++ FL)).
  match goal with |- context [concat (map ?f ?l) ++ text_bytes (RL ++ FL)] => change (concat (map f l)) with (text_bytes l) end.
  rewrite to_lines_text by exact HH. rewrite <- (app_nil_r (text_bytes (RL ++ FL))), to_lines_text by exact HL. change (to_lines []) with [""%string].
  destruct fuel as [|[|fu]]; [lia|lia|].
  cbn [app line1 hd tl]. change (String.eqb (strip "ply") "ply") with true. cbn [negb].
  rewrite (next_line_word _ "format ascii 1.0") by reflexivity. cbn [bind fst snd]. change (strip "format ascii 1.0") with "format ascii 1.0"%string.
  change (String.eqb "format ascii 1.0" "format ascii 1.0") with true. cbv iota. cbn [bind].
  change ("element vertex " ++ str_of_nat (length points))%string with (row_line ["element"; "vertex"; str_of_nat (length points)]).
  rewrite next_line_row; [|cbn [forallb]; now rewrite word_str_of_nat|discriminate|reflexivity]. cbn [bind fst snd].
  change (row_line ["element"; "vertex"; str_of_nat (length points)]) with ("element vertex " ++ str_of_nat (length points))%string.
  rewrite header_start. cbn [h0 h_faces h_props h_fprops].
  replace (S fu) with (length [("x", "double"); ("y", "double"); ("z", "double")]%string + S (S (length props + S (fu - length props - 5)))) by (cbn [length]; lia).
  rewrite <- !app_assoc. rewrite go_props by (repeat constructor). cbn [h_verts h_faces h_props h_fprops app face_lines].
  rewrite go_faces by reflexivity. cbn [h_verts h_faces h_props h_fprops app].
  rewrite go_face_props by exact Hp. cbn [h_verts h_faces h_props h_fprops app]. rewrite go_end. cbn [bind fst snd].
  unfold read_text. cbn [h_verts h_faces h_props h_fprops]. cbn [map fst snd mapM].
  change (dget "double" ply_to_numpy) with (Some "f8"%string). cbn [of_option bind].
  change (distinct ["x"; "y"; "z"]) with true. cbn [negb].
  assert (EG : genfromtxt nk ["x"; "y"; "z"] ["f8"; "f8"; "f8"] (length points) (RL ++ FL ++ [""]) = Ok (points, FL ++ [""%string])).
  { replace (length points) with (length (map (map (typed nk "f8")) points)) by now rewrite map_length. unfold RL.
    rewrite (genfromtxt_ok good Hnum); auto; [|destruct points; [congruence|discriminate]|discriminate|].
    - do 2 f_equal. rewrite map_map. rewrite <- (map_id points) at 2. apply map_ext. intros p. rewrite map_map. cbn. apply map_id.
    - apply Forall_map. eapply Forall_impl; [|exact Hpts]. intros p [Hl _]. destruct p as [|a [|b [|c [|]]]]; try discriminate Hl. reflexivity. }
  rewrite EG. cbn [bind]. cbn [coord_columns]. change (String.eqb "x" "x") with true. change (String.eqb "y" "y") with true. change (String.eqb "z" "z") with true.
  cbn [app bind]. change (forallb name_kept ["x"; "y"; "z"]) with true. cbn [negb length seq combine skipn map].
  assert (Hnf : Nat.eqb (length faces) 0 = false) by (destruct faces; [congruence|reflexivity]). rewrite Hnf.
  assert (EI : init_face_data nk (("vertex_indices"%string, ListOf "uint8" "int32") :: scalars props) (split_ws (line1 (FL ++ [""%string]))) 0 [] =
               Ok (combine (map fst props) (map (fun _ => []) (seq 0 (length props))))).
  { unfold FL. destruct faces as [|f fs]; [congruence|]. cbn [map app line1 hd]. inversion HG as [|? ? [_ Hv] _]; subst.
    unfold row_line. rewrite split_ws_join by now apply tokens_words. now apply init_ok. }
  rewrite EI. cbn [bind].
  assert (ER : read_face_rows nk (("vertex_indices"%string, ListOf "uint8" "int32") :: scalars props) (length faces) (FL ++ [""%string])
       ([], combine (map fst props) (map (fun _ => []) (seq 0 (length props)))) =
     Ok (fold_left (fun a f => add_ply_face a (length (fst f)) (fst f)) faces [],
         combine (map fst props) (map (fun j => collect (pairs_at j faces) []) (seq 0 (length props))))).
  { rewrite <- (all_values_ok props faces (fun _ => [])) by exact HG. apply face_rows; auto. rewrite map_length, seq_length. reflexivity. }
  rewrite ER. cbn [bind fst snd]. change (Nat.eqb 0 0) with true. rewrite Bool.andb_false_r.
  f_equal. f_equal.
  - rewrite <- (map_id points) at 2. apply map_ext_in. intros p Hin. rewrite Forall_forall in Hpts. destruct (Hpts p Hin) as [Hl _].
    destruct p as [|a [|b [|c [|]]]]; try discriminate Hl. reflexivity.
  - pose proof (add_faces faces [] ltac:(constructor)) as EA. cbn [map] in EA. rewrite EA. rewrite face_blocks_groups. unfold face_groups.
    transitivity (map (fun g => Block (corner_type (fst g)) (snd g)) (group_adj Nat.eqb (map (fun f : cell * list nk => (length (fst f), fst f)) faces))).
    + rewrite <- (run_groups_adj Nat.eqb Nat.eqb_spec). unfold run_groups, in_order. rewrite <- !map_rev, !map_map. reflexivity.
    + replace (map (fun f : cell * list nk => (length (fst f), fst f)) faces) with (map (fun kv : nat * (cell * list nk) => (fst kv, fst (snd kv))) (map (fun f => (length (fst f), f)) faces)) by (rewrite map_map; reflexivity).
      rewrite group_adj_map, map_map. reflexivity.
  - clear. generalize 0 as s. induction props as [|p ps IH]; intros s; [reflexivity|]. cbn [length seq map combine fst snd]. f_equal. apply IH.
Qed.
Theorem face_file_together points props faces fuel : readable good points props faces -> length props + 7 <= fuel ->
  NoDup (map corners (face_blocks faces)) -> read_ply nk fuel (text_bytes (face_file points props faces)) = Ok (face_mesh points props faces).
Proof.
  intros H Hfu Hd. rewrite face_file_read by auto.
  assert (HG : faces_good props faces) by (eapply Forall_impl; [|exact (fr_faces _ _ _ _ H)]; cbn; tauto).
  assert (E : map (fun jp : nat * (string * string) => (fst (snd jp), map snd (collect (pairs_at (fst jp) faces) []))) (combine (seq 0 (length props)) props) =
              map (fun jp => (fst (snd jp), data_for (face_blocks faces) (values_at (fst jp) faces))) (combine (seq 0 (length props)) props)).
  { apply map_ext_in. intros [j p] Hin. cbn [fst snd]. f_equal. apply (collected props); auto. apply in_combine_l in Hin. apply in_seq in Hin. lia. }
  rewrite E. unfold check_mesh. cbn [o_data forallb negb o_cell_data o_cells].
  match goal with |- (if negb ?c then _ else _) = _ => replace c with true end; [reflexivity|].
  symmetry. apply forallb_forall. intros kv Hin. apply in_map_iff in Hin. destruct Hin as ([j p] & <- & Hin). cbn [fst snd].
  apply in_combine_l in Hin. apply in_seq in Hin. rewrite (lengths_ok props) by (auto; lia). rewrite Bool.andb_true_r. apply Nat.eqb_eq.
  unfold data_for. rewrite split_lens_length. apply map_length.
Qed.
Theorem face_file_apart points props faces fuel : readable good points props faces -> length props + 7 <= fuel -> props <> [] ->
  ~ NoDup (map corners (face_blocks faces)) -> read_ply nk fuel (text_bytes (face_file points props faces)) = Err ValueError.
Proof.
  intros H Hfu Hne Hd. rewrite face_file_read by auto. unfold check_mesh. cbn [o_data forallb negb o_cell_data o_cells].
  destruct props as [|p props]; [congruence|]. cbn [length seq combine map forallb fst snd].
  assert (E : length (map snd (collect (pairs_at 0 faces) [])) <> length (face_blocks faces)) by (apply (collected_fails (p :: props)); auto; cbn [length]; lia). apply Nat.eqb_neq in E. rewrite E. reflexivity.
Qed.
End Text.
