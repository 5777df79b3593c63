(** What the XML parser makes of the output of the XML writer. *)
From Coq Require Import List String Ascii Bool Arith Lia.
From Verif.Lib Require Import Base Text Facts TextFacts.
From Verif.Model Require Import Cxml.
From Verif.Spec Require Import Cxml.
Import ListNotations.

Lemma ch_string s : string_of_list_ascii (ch s) = s.
Proof. apply string_of_list_ascii_of_string. Qed.
Lemma string_ch l : ch (string_of_list_ascii l) = l.
Proof. apply list_ascii_of_string_of_list_ascii. Qed.
Lemma ch_app s t : ch (s ++ t)%string = ch s ++ ch t.
Proof. induction s; cbn; auto. now f_equal. Qed.

Lemma strip_prefix_app p s : strip_prefix p (p ++ s) = Some s.
Proof. induction p as [|a p IH]; cbn; [destruct s; reflexivity|]. now rewrite Ascii.eqb_refl. Qed.
Lemma strip_prefix_self p : strip_prefix p p = Some [].
Proof. rewrite <- (app_nil_r p) at 2. apply strip_prefix_app. Qed.
Lemma strip_prefix_nil s : strip_prefix [] s = Some s.
Proof. destruct s; reflexivity. Qed.
Lemma strip_prefix_spec p s r : strip_prefix p s = Some r -> s = p ++ r.
Proof.
  revert s; induction p as [|a p IH]; intros s; cbn; [destruct s; congruence|].
  destruct s as [|c s]; [discriminate|]. destruct (Ascii.eqb_spec a c); [|discriminate]. subst. intros H. f_equal. auto.
Qed.
Lemma strip_prefix_head a p c s : Ascii.eqb a c = false -> strip_prefix (a :: p) (c :: s) = None.
Proof. intros H. cbn. now rewrite H. Qed.

Lemma span_all f w : forallb f w = true -> span f w = (w, []).
Proof. induction w as [|c w IH]; cbn; auto. intros H. apply andb_true_iff in H. destruct H as [Hc Hw]. rewrite Hc, IH by auto. reflexivity. Qed.
Lemma span_app f w s : forallb f w = true -> span f (w ++ s) = (w ++ fst (span f s), snd (span f s)).
Proof.
  induction w as [|c w IH]; cbn [forallb app span]; [now destruct (span f s)|].
  intros H. apply andb_true_iff in H. destruct H as [Hc Hw]. rewrite Hc, IH by auto. reflexivity.
Qed.
Lemma span_stop f w c s : forallb f w = true -> f c = false -> span f (w ++ c :: s) = (w, c :: s).
Proof. intros H Hc. rewrite span_app by auto. cbn [span]. rewrite Hc. cbn. now rewrite app_nil_r. Qed.
Lemma span_eq f s : s = fst (span f s) ++ snd (span f s).
Proof. induction s as [|c s IH]; cbn; auto. destruct (f c); [|reflexivity]. destruct (span f s). cbn in *. now f_equal. Qed.
Lemma drop_space_none c s : xspace c = false -> drop_space (c :: s) = c :: s.
Proof. unfold drop_space. cbn. now intros ->. Qed.
Lemma drop_space_one c s : xspace c = true -> drop_space (c :: s) = drop_space s.
Proof. unfold drop_space. cbn. intros ->. now destruct (span xspace s). Qed.

(** ** Text *)
Lemma unescape_fuel norm s : forall k k', length s < k -> length s < k' -> unescape norm k s = unescape norm k' s.
Proof.
  remember (length s) as n eqn:En. revert s En. induction n as [n IH] using lt_wf_ind. intros s En k k' Hk Hk'.
  destruct k as [|k]; [lia|]. destruct k' as [|k']; [lia|]. cbn [unescape]. destruct s as [|c r]; [reflexivity|].
  destruct (negb (legal c)); [reflexivity|]. cbn [length] in En.
  destruct (Ascii.eqb c "&").
  - destruct (entity entities r) as [[d r']|] eqn:E; [|reflexivity].
    assert (Hr : length r' <= length r).
    { revert E. generalize entities. intros l. induction l as [|[e c0] l IHl]; cbn; [discriminate|].
      destruct (strip_prefix (ch e) r) eqn:Es; [|exact IHl]. intros H. injection H as -> ->.
      apply strip_prefix_spec in Es. subst r. rewrite app_length. lia. }
    f_equal. apply (IH (length r')); lia.
  - f_equal. apply (IH (length r)); lia.
Qed.
Lemma unescape_plain norm w s k : plain w = true -> length (w ++ s) < k ->
  unescape norm k (w ++ s) = option_map (app (if norm then map blank_out w else w)) (unescape norm k s).
Proof.
  revert k; induction w as [|c w IH]; intros k Hw Hk.
  - cbn. destruct (unescape norm k s), norm; reflexivity.
  - cbn [plain forallb] in Hw. apply andb_true_iff in Hw. destruct Hw as [Hc Hw].
    unfold plain_char in Hc. apply andb_true_iff in Hc. destruct Hc as [Hc Ha]. apply andb_true_iff in Hc. destruct Hc as [Hl Hlt].
    apply negb_true_iff in Ha, Hlt. destruct k as [|k]; [lia|]. cbn [app] in *. cbn [length] in Hk.
    rewrite (unescape_fuel norm s (S k) k) by (rewrite app_length in Hk; lia).
    cbn [unescape]. rewrite Hl, Ha. cbn [negb]. rewrite IH by (auto; lia).
    destruct (unescape norm k s); [|reflexivity]. cbn. destruct norm; reflexivity.
Qed.
Lemma text_plain w s : plain w = true -> text_value (w ++ s) = option_map (app w) (text_value s).
Proof.
  intros Hw. unfold text_value. rewrite (unescape_plain false) by (auto; lia).
  rewrite (unescape_fuel false s (S (length (w ++ s))) (S (length s))) by (rewrite ?app_length; lia). reflexivity.
Qed.
Lemma attr_plain w : plain w = true -> attr_value w = Some (map blank_out w).
Proof.
  intros Hw. unfold attr_value. rewrite <- (app_nil_r w) at 2. rewrite (unescape_plain true) by (auto; rewrite app_nil_r; lia).
  cbn. now rewrite app_nil_r.
Qed.
Lemma plain_no_lt w : plain w = true -> forallb (fun c => negb (Ascii.eqb c "<")) w = true /\ existsb (Ascii.eqb "<") w = false.
Proof.
  unfold plain. induction w as [|c w IH]; cbn [forallb existsb]; [auto|]. intros H. apply andb_true_iff in H. destruct H as [Hc Hw].
  destruct (IH Hw) as [I1 I2]. unfold plain_char in Hc. apply andb_true_iff in Hc. destruct Hc as [Hc _].
  apply andb_true_iff in Hc. destruct Hc as [_ Hc]. rewrite Hc, I1. split; [reflexivity|]. apply negb_true_iff in Hc.
  rewrite Ascii.eqb_sym, Hc. exact I2.
Qed.

(** ** Attributes *)
Lemma value_ok_plain s : value_ok s = true -> plain (ch s) = true /\ map blank_out (ch s) = ch s /\
  forallb (fun c => negb (Ascii.eqb c quote)) (ch s) = true.
Proof.
  unfold value_ok, plain. induction (ch s) as [|c l IH]; cbn [forallb map]; [auto|]. intros H. apply andb_true_iff in H. destruct H as [Hc Hl].
  destruct (IH Hl) as (I1 & I2 & I3). unfold value_char in Hc. apply andb_true_iff in Hc. destruct Hc as [Hc Hp].
  apply andb_true_iff in Hc. destruct Hc as [Hl32 Hq]. rewrite Hq, I1, I2, I3, Hp. split; [reflexivity|]. split; [|reflexivity].
  f_equal. unfold blank_out. destruct (xspace c) eqn:E; [|reflexivity]. unfold xspace in E.
  apply Nat.leb_le in Hl32. assert (H32 : nat_of_ascii c = 32).
  { repeat (apply orb_true_iff in E; destruct E as [E|E]); apply Nat.eqb_eq in E; lia. }
  rewrite <- (ascii_nat_embedding c), H32. reflexivity.
Qed.
Lemma tag_ok_name s : tag_ok s = true -> forallb name_char (ch s) = true /\ ch s <> [].
Proof. unfold tag_ok. destruct s; cbn; [discriminate|]. intros H. split; [exact H|discriminate]. Qed.
Lemma name_not_space c : name_char c = true -> xspace c = false.
Proof. destruct c as [[] [] [] [] [] [] [] []]; vm_compute; auto. Qed.
Lemma name_not_gt c : name_char c = true -> Ascii.eqb ">" c = false /\ Ascii.eqb "/" c = false /\ Ascii.eqb "!" c = false.
Proof. destruct c as [[] [] [] [] [] [] [] []]; vm_compute; auto. Qed.

Lemma attributes_ok attrs : Forall (fun kv => tag_ok (fst kv) = true /\ value_ok (snd kv) = true) attrs -> NoDup (map fst attrs) ->
  forall rest k, length (concat (map print_attr attrs)) < k ->
    attributes k (concat (map print_attr attrs) ++ ">"%char :: rest) = Some (attrs, false, rest).
Proof.
  induction attrs as [|[n v] attrs IH]; intros Ha Hn rest k Hk.
  - destruct k as [|k]; [lia|]. cbn [map concat app attributes]. rewrite drop_space_none by reflexivity.
    cbn [strip_prefix]. rewrite Ascii.eqb_refl. now destruct rest.
  - destruct k as [|k]; [lia|]. inversion Ha as [|x l [Hnm Hv] Ha']; subst. inversion Hn as [|x l Hni Hn']; subst.
    cbn [fst snd] in *. destruct (tag_ok_name _ Hnm) as [N1 N2]. destruct (value_ok_plain _ Hv) as (V1 & V2 & V3).
    cbn [map concat] in *. unfold print_attr at 1. unfold print_attr at 1 in Hk. cbn [fst snd] in *.
    cbn [app length] in Hk. repeat rewrite app_length in Hk. cbn [length] in Hk.
    repeat rewrite <- app_assoc. cbn [app]. repeat rewrite <- app_assoc. cbn [app]. cbn [attributes].
    rewrite drop_space_one by reflexivity.
    destruct (ch n) as [|c0 n0] eqn:En; [congruence|]. cbn [forallb] in N1. apply andb_true_iff in N1. destruct N1 as [N0 N1].
    rewrite <- !app_comm_cons. rewrite drop_space_none by (apply name_not_space; exact N0).
    destruct (name_not_gt _ N0) as (G1 & G2 & _). rewrite (strip_prefix_head _ _ _ _ G1), (strip_prefix_head _ _ _ _ G2).
    cbn [negb]. assert (Es : xspace " " = true) by reflexivity. rewrite Es. cbn [negb].
    rewrite app_comm_cons. rewrite span_stop; [|cbn [forallb]; now rewrite N0, N1|reflexivity].
    rewrite drop_space_none by reflexivity. cbn [strip_prefix]. rewrite Ascii.eqb_refl. cbn [strip_prefix app].
    rewrite drop_space_none by reflexivity. rewrite Ascii.eqb_refl. cbn [orb negb].
    rewrite <- (app_assoc (ch v)). cbn [app].
    rewrite span_stop; [|exact V3|now rewrite Ascii.eqb_refl].
    destruct (plain_no_lt _ V1) as [_ ->]. rewrite (attr_plain _ V1), V2.
    rewrite IH by (auto; rewrite ?app_length in Hk; cbn [length] in Hk; lia).
    rewrite <- En, !ch_string.
    destruct (dmem n attrs) eqn:Ed; [|reflexivity]. exfalso. apply Hni.
    unfold dmem in Ed. destruct (dget n attrs) eqn:Eg; [|discriminate].
    clear -Eg. revert Eg. induction attrs as [|[a b] l IH]; cbn; [discriminate|].
    destruct (String.eqb_spec n a); [subst; auto|auto].
Qed.

(** ** Content *)
Definition stable (s : chars) (x : chars * list xnode * chars) : Prop := forall k, length s < k -> content k s = Some x.

Lemma stable_end r : stable ("<"%char :: "/"%char :: r) ([], [], "<"%char :: "/"%char :: r).
Proof. intros k Hk. destruct k as [|k]; [lia|]. cbn. destruct r; reflexivity. Qed.

Lemma stable_text w s t cs r : plain w = true -> stable s (t, cs, r) -> stable (w ++ s) (w ++ t, cs, r).
Proof.
  intros Hw Hs k Hk. destruct k as [|k]; [lia|]. specialize (Hs (S k)).
  assert (Hks : length s < S k) by (rewrite app_length in Hk; lia). specialize (Hs Hks).
  destruct (plain_no_lt _ Hw) as [Hlt _]. cbn [content] in *. rewrite span_app by exact Hlt.
  destruct (span (fun c => negb (Ascii.eqb c "<")) s) as [raw s1] eqn:E. cbn [fst snd]. rewrite text_plain by exact Hw.
  destruct (text_value raw) as [tv|]; [|discriminate]. cbn [option_map].
  repeat match goal with
  | Hs : match ?x with _ => _ end = Some _ |- _ =>
      first [is_var x; destruct x | destruct x eqn:?]; try discriminate
  end; try (injection Hs as <- <- <-); rewrite <- ?app_assoc; try reflexivity.
Qed.

Lemma after_comment_ok t s : comment_ok t = true -> after_comment (ch t ++ ch "-->" ++ s) = Some s.
Proof.
  unfold comment_ok. induction (ch t) as [|c l IH]; intros H.
  - cbn. now destruct s.
  - cbn [forallb] in H. apply andb_true_iff in H. destruct H as [Hc Hl]. apply negb_true_iff in Hc.
    rewrite <- app_comm_cons. cbn [after_comment]. change (ch "-->") with ["-"%char; "-"%char; ">"%char] at 1.
    rewrite strip_prefix_head by (rewrite Ascii.eqb_sym; exact Hc). apply IH. exact Hl.
Qed.

Lemma stable_comment c s t cs r : comment_ok c = true -> stable s (t, cs, r) ->
  stable (ch "<!--" ++ ch c ++ ch "-->" ++ s) (t, cs, r).
Proof.
  intros Hc Hs k Hk. destruct k as [|k]; [lia|]. cbn [content].
  change (span (fun c => negb (Ascii.eqb c "<")) (ch "<!--" ++ ch c ++ ch "-->" ++ s)) with (@nil ascii, ch "<!--" ++ ch c ++ ch "-->" ++ s).
  cbn [text_value unescape length]. change (text_value []) with (Some (@nil ascii)). cbv iota beta.
  assert (E : strip_prefix ["<"%char; "/"%char] (ch "<!--" ++ ch c ++ ch "-->" ++ s) = None) by reflexivity. rewrite E.
  rewrite strip_prefix_app, after_comment_ok by exact Hc. rewrite Hs; [reflexivity|].
  repeat rewrite app_length in Hk. cbn [length ch list_ascii_of_string] in Hk. lia.
Qed.

Lemma open_tag_eq tag attrs s : open_tag tag attrs ++ s = "<"%char :: ch tag ++ concat (map print_attr attrs) ++ ">"%char :: s.
Proof. unfold open_tag. cbn [app]. rewrite <- !app_assoc. reflexivity. Qed.
Lemma close_tag_eq tag s : close_tag tag ++ s = "<"%char :: "/"%char :: ch tag ++ ">"%char :: s.
Proof. unfold close_tag. cbn [app]. rewrite <- !app_assoc. reflexivity. Qed.

Lemma stable_elem tag attrs inner s t cs t2 sibs r :
  tag_ok tag = true -> Forall (fun kv => tag_ok (fst kv) = true /\ value_ok (snd kv) = true) attrs -> NoDup (map fst attrs) ->
  stable (inner ++ close_tag tag ++ s) (t, cs, close_tag tag ++ s) -> stable s (t2, sibs, r) ->
  stable (open_tag tag attrs ++ inner ++ close_tag tag ++ s) ([], XNode tag attrs t cs :: sibs, r).
Proof.
  intros Ht Ha Hn Hi Hs k Hk. destruct k as [|k]; [lia|]. destruct (tag_ok_name _ Ht) as [T1 T2].
  rewrite open_tag_eq in *. cbn [length] in Hk. repeat rewrite app_length in Hk. cbn [length] in Hk.
  assert (Hki : length (inner ++ close_tag tag ++ s) < k) by lia.
  specialize (Hi k Hki). assert (Hs' : content k s = Some (t2, sibs, r)) by (apply Hs; rewrite !app_length in Hki; lia). clear Hs.
  remember (inner ++ close_tag tag ++ s) as body eqn:Eb.
  destruct (ch tag) as [|c0 n0] eqn:En; [congruence|]. cbn [forallb] in T1. apply andb_true_iff in T1. destruct T1 as [N0 N1].
  destruct (name_not_gt _ N0) as (_ & G2 & G3).
  cbn [content span]. cbn [Ascii.eqb Bool.eqb negb].
  change (text_value []) with (Some (@nil ascii)). cbv iota beta.
  assert (E1 : forall l, strip_prefix ["<"%char; "/"%char] ("<"%char :: (c0 :: n0) ++ l) = None).
  { intros l. cbn [strip_prefix app]. rewrite Ascii.eqb_refl. cbn [strip_prefix]. now rewrite G2. }
  assert (E2 : forall l, strip_prefix (ch "<!--") ("<"%char :: (c0 :: n0) ++ l) = None).
  { intros l. change (ch "<!--") with ["<"%char; "!"%char; "-"%char; "-"%char]. cbn [strip_prefix app]. rewrite Ascii.eqb_refl. cbn [strip_prefix]. now rewrite G3. }
  assert (E3 : forall c l, strip_prefix [c] (c :: l) = Some l) by (intros c l; cbn [strip_prefix]; rewrite Ascii.eqb_refl; apply strip_prefix_nil).
  rewrite E1, E2, E3.
  assert (E4 : span name_char ((c0 :: n0) ++ concat (map print_attr attrs) ++ ">"%char :: body) =
               (c0 :: n0, concat (map print_attr attrs) ++ ">"%char :: body)).
  { destruct attrs as [|a attrs']; cbn [map concat app];
      [|unfold print_attr at 1; cbn [app]]; rewrite app_comm_cons; (apply span_stop; [cbn [forallb]; now rewrite N0, N1|reflexivity]). }
  rewrite E4. rewrite attributes_ok by (auto; rewrite app_length; lia). rewrite Hi.
  unfold end_tag. rewrite <- En, close_tag_eq.
  rewrite app_comm_cons, app_comm_cons, strip_prefix_app. rewrite drop_space_none by reflexivity. rewrite E3. rewrite Hs'. now rewrite ch_string.
Qed.

(** ** Documents *)
Section Induction.
Variable P : xelem -> Prop.
Hypothesis He : forall tag attrs text cs, Forall P cs -> P (XElem tag attrs text cs).
Hypothesis Hc : forall t, P (XComment t).
Fixpoint xelem_rect' (e : xelem) : P e :=
  match e with
  | XElem tag attrs text cs => He tag attrs text cs
      ((fix go l := match l return Forall P l with [] => Forall_nil P | x :: l' => Forall_cons x (xelem_rect' x) (go l') end) cs)
  | XComment t => Hc t
  end.
End Induction.

Definition prints (e : xelem) : Prop := forall s t cs r, stable s (t, cs, r) ->
  match e with
  | XComment _ => stable (print_elem e ++ s) (lf :: t, cs, r)
  | _ => stable (print_elem e ++ s) ([], seen e ++ cs, r)
  end.
Lemma prints_all es : Forall prints es -> forall s t, (forall r, stable s (t, [], r) -> True) ->
  forall r, stable s ([], [], r) -> stable (concat (map print_elem es) ++ s) (lead es, concat (map seen es), r).
Proof.
  intros H s t _ r Hs. induction H as [|e es He Hes IH]; [exact Hs|].
  cbn [map concat lead]. rewrite <- app_assoc. specialize (He _ _ _ _ IH).
  destruct e as [tag attrs text cs|c]; exact He.
Qed.

Lemma plain_lf t : plain t = true -> plain (lf :: t) = true.
Proof. intros H. unfold plain. cbn [forallb]. change (plain_char lf) with true. exact H. Qed.
Lemma plain_snoc t : plain t = true -> plain (t ++ [lf]) = true.
Proof. intros H. unfold plain in *. rewrite forallb_app, H. reflexivity. Qed.

Lemma printed e : elem_ok e -> prints e.
Proof.
  induction e as [tag attrs text cs IH|c] using xelem_rect'.
  - cbn [elem_ok]. intros (Ht & Ha & Hn & Hx & Hcs) s t l r Hs. cbn [print_elem seen].
    assert (Hp : Forall prints cs).
    { clear -IH Hcs. induction IH as [|e es He Hes IHes]; constructor; cbn in Hcs; tauto. }
    clear IH Hcs.
    replace ((open_tag tag attrs ++ [lf] ++ match text with Some t0 => t0 ++ [lf] | None => [] end ++
      concat (map print_elem cs) ++ close_tag tag ++ [lf]) ++ s)
    with (open_tag tag attrs ++ ((lf :: match text with Some t0 => t0 ++ [lf] | None => [] end) ++ concat (map print_elem cs)) ++
      close_tag tag ++ [lf] ++ s) by (cbn [app]; rewrite <- !app_assoc; cbn [app]; now rewrite <- !app_assoc).
    eapply stable_elem; auto.
    + rewrite <- app_assoc. eapply stable_text.
      * apply plain_lf. destruct text; [now apply plain_snoc|reflexivity].
      * apply (prints_all cs Hp _ []); [auto|]. rewrite close_tag_eq. apply stable_end.
    + apply stable_text; [reflexivity|exact Hs].
  - cbn [elem_ok]. intros Hc s t cs r Hs. cbn [print_elem]. rewrite <- !app_assoc.
    apply stable_comment; [exact Hc|]. now apply (stable_text [lf]).
Qed.

(** A document is read with the tags, attributes, texts and children that were written. *)
Theorem doc_roundtrip e n : elem_ok e -> seen e = [n] -> parse_doc (print_doc e) = Some n.
Proof.
  intros He Hn. unfold parse_doc, print_doc.
  assert (Es : forall l, skip_declaration (xml_declaration ++ l) = lf :: l).
  { intros l. reflexivity. }
  rewrite Es. cbn [app].
  assert (H : stable (lf :: print_elem e ++ ["<"%char; "/"%char]) ([lf], [n], ["<"%char; "/"%char])).
  { destruct e as [tag attrs text cs|c]; [|discriminate]. apply (stable_text [lf]); [reflexivity|].
    apply printed in He. specialize (He ["<"%char; "/"%char] [] [] ["<"%char; "/"%char] (stable_end [])).
    rewrite Hn in He. exact He. }
  rewrite H by lia. reflexivity.
Qed.

(** The texts of a document are parts of it. *)
Fixpoint texts (e : xelem) : list chars :=
  match e with
  | XElem _ _ t cs => match t with Some t => [t] | None => [] end ++ concat (map texts cs)
  | XComment _ => []
  end.
Lemma text_length e : Forall (fun t => length t <= length (print_elem e)) (texts e).
Proof.
  induction e as [tag attrs text cs IH|c] using xelem_rect'; [|constructor]. cbn [texts print_elem]. apply Forall_app. split.
  - destruct text as [t|]; [|constructor]. constructor; [|constructor]. rewrite !app_length. lia.
  - apply Forall_forall. intros t Ht. apply in_concat in Ht. destruct Ht as (l & Hl & Ht). apply in_map_iff in Hl.
    destruct Hl as (e & <- & He). rewrite Forall_forall in IH. specialize (IH e He). rewrite Forall_forall in IH. specialize (IH t Ht).
    assert (length (print_elem e) <= length (concat (map print_elem cs))).
    { clear -He. induction cs as [|x cs IH]; [destruct He|]. cbn [map concat]. rewrite app_length. destruct He as [->|He]; [lia|].
      specialize (IH He). lia. }
    rewrite !app_length. lia.
Qed.
