(** What the VTU reader makes of the files of the VTU writer. *)
From Coq Require Import ZArith NArith List String Ascii Bool Lia.
From Verif.Lib Require Import Base Text Facts Facts2 TextFacts Lines LinesFacts Bytes BytesFacts File.
From Verif.Model Require Import Core Helpers Vtk Vtu VtkFile Numpy Cxml VtuFile.
From Verif.Spec Require Import Core Blocks Vtk Cxml VtkFile VtuFile.
From Verif.Proofs Require Import Blocks Vtk Vtk51 Numpy Vtu VtkPort VtkFile Cxml.
Import ListNotations.
Import Model.VtuFile Spec.VtuFile.

(** ** Characters *)
Definition b64_ok (c : ascii) : bool := plain_char c && negb (is_space c).
Lemma b64_char_ok n : b64_ok (b64_char n) = true.
Proof.
  destruct (N.ltb_spec n 64).
  - assert (G : forallb (fun k => b64_ok (b64_char (N.of_nat k))) (seq 0 64) = true) by (vm_compute; reflexivity).
    rewrite forallb_forall in G. specialize (G (N.to_nat n)). rewrite N2Nat.id in G. apply G. apply in_seq. lia.
  - unfold b64_char. destruct (N.ltb_spec n 26); [lia|]. destruct (N.ltb_spec n 52); [lia|]. destruct (N.ltb_spec n 62); [lia|].
    destruct (N.eqb_spec n 62); [lia|]. reflexivity.
Qed.
Lemma b64encode_clean l : forallb b64_ok (b64encode l) = true.
Proof.
  remember (length l) as n eqn:E. revert l E. induction n as [n IH] using lt_wf_ind. intros [|a [|b [|c l]]] E; [reflexivity| | |].
  - cbn [b64encode forallb]. rewrite !b64_char_ok. reflexivity.
  - cbn [b64encode forallb]. rewrite !b64_char_ok. reflexivity.
  - cbn [b64encode forallb]. rewrite !b64_char_ok. cbn [andb]. apply (IH (length l)); [|reflexivity]. cbn [length] in E. lia.
Qed.
Lemma clean_plain l : forallb b64_ok l = true -> plain l = true /\ no_space (str l) = true.
Proof.
  induction l as [|c l IH]; [auto|]. cbn [forallb]. intros H. apply andb_true_iff in H. destruct H as [Hc Hl].
  unfold b64_ok in Hc. apply andb_true_iff in Hc. destruct Hc as [Hp Hs]. destruct (IH Hl) as [I1 I2].
  unfold plain. cbn [forallb]. rewrite Hp. split; [exact I1|]. cbn [str string_of_list_ascii no_space]. rewrite Hs. exact I2.
Qed.

Lemma str_app a b : str (a ++ b) = (str a ++ str b)%string.
Proof. induction a as [|c a IH]; [reflexivity|]. cbn. unfold str in IH. now rewrite IH. Qed.
Lemma str_ch s : str (ch s) = s. Proof. apply ch_string. Qed.
Lemma ch_str l : ch (str l) = l. Proof. apply string_ch. Qed.

Lemma rstrip_lf s : no_space s = true -> rstrip (s ++ String lf "")%string = s.
Proof.
  induction s as [|c s IH]; cbn [no_space]; [reflexivity|]. intros H. apply andb_true_iff in H. destruct H as [Hc Hs].
  cbn [append rstrip]. rewrite IH by exact Hs. apply negb_true_iff in Hc. rewrite Hc. destruct s; reflexivity.
Qed.
Lemma cstrip_wrapped t : no_space (str t) = true -> cstrip (lf :: t ++ [lf]) = t.
Proof.
  intros H. unfold cstrip. change (str (lf :: t ++ [lf])) with (String lf (str (t ++ [lf]))). rewrite str_app.
  change (str [lf]) with (String lf ""). unfold strip. cbn [lstrip]. change (is_space lf) with true. cbv iota.
  assert (E : lstrip (str t ++ String lf "")%string = match t with [] => "" | _ => (str t ++ String lf "")%string end).
  { destruct t as [|c t]; [reflexivity|]. cbn [str string_of_list_ascii append lstrip]. cbn [str string_of_list_ascii no_space] in H.
    apply andb_true_iff in H. destruct H as [H _]. apply negb_true_iff in H. now rewrite H. }
  rewrite E. destruct t as [|c t]; [reflexivity|]. rewrite rstrip_lf by exact H. apply ch_str.
Qed.

(** ** Text of ASCII arrays *)
Lemma ascii_text_plain toks : Forall (fun t => plain (ch t) = true) toks -> plain (ascii_text toks) = true.
Proof.
  unfold ascii_text. induction 1 as [|t toks Ht H IH]; [reflexivity|]. cbn [map concat]. unfold plain in *.
  rewrite !forallb_app, Ht, IH. reflexivity.
Qed.
Lemma ascii_text_tokens toks : forallb word toks = true -> split_ws (str (lf :: ascii_text toks ++ [lf])) = toks.
Proof.
  intros H. change (str (lf :: ascii_text toks ++ [lf])) with (String lf (str (ascii_text toks ++ [lf]))).
  rewrite split_ws_space by reflexivity. unfold ascii_text. induction toks as [|t toks IH]; [reflexivity|].
  cbn [forallb] in H. apply andb_true_iff in H. destruct H as [H1 H2]. cbn [map concat]. rewrite <- !app_assoc, str_app, str_ch.
  cbn [app]. change (str (lf :: ?l)) with (String lf (str l)). rewrite split_ws_word_space by (auto; reflexivity). now rewrite IH.
Qed.

(** ** Types *)
Lemma vtu_name_ok dt : In dt vtu_known -> exists vt, dget dt vtu_names = Some vt /\ dget vt vtu_dtypes = Some dt /\ value_ok vt = true.
Proof.
  cbn [In vtu_known]. intros H.
  repeat (destruct H as [<-|H]; [eexists; split; [vm_compute; reflexivity|split; vm_compute; reflexivity]|]). destruct H.
Qed.
Lemma vtu_width dt : In dt vtu_known -> exists q, width_of dt * q = 8 /\ 0 < width_of dt.
Proof.
  cbn [In vtu_known]. intros H.
  repeat (destruct H as [<-|H]; [first [exists 1; split; vm_compute; [reflexivity|lia] | exists 2; split; vm_compute; [reflexivity|lia]
    | exists 4; split; vm_compute; [reflexivity|lia] | exists 8; split; vm_compute; [reflexivity|lia]]|]). destruct H.
Qed.
Lemma header_width_pos ht w : dget ht header_widths = Some w -> 0 < w.
Proof.
  intros H. apply dget_In in H. cbn [In header_widths] in H.
  repeat (destruct H as [H|H]; [injection H as _ <-; lia|]). destruct H.
Qed.
Lemma digits_value s : all_digits s = true -> value_ok s = true /\ plain (ch s) = true.
Proof.
  unfold value_ok, plain. induction s as [|c s IH]; [auto|]. cbn [all_digits ch list_ascii_of_string forallb]. intros H.
  apply andb_true_iff in H. destruct H as [Hc Hs]. destruct (IH Hs) as [I1 I2]. unfold ch in *. rewrite I1, I2.
  assert (D : value_char c = true /\ plain_char c = true).
  { clear -Hc. revert Hc. destruct c as [[] [] [] [] [] [] [] []]; vm_compute; auto. }
  destruct D as [-> ->]. auto.
Qed.
Lemma count_value n : value_ok (str_of_nat n) = true.
Proof. apply digits_value, str_of_N_all_digits. Qed.
Lemma int_plain z : plain (ch (str_of_Z z)) = true.
Proof.
  destruct z as [|p|p]; [reflexivity|apply digits_value, str_of_N_all_digits|].
  cbn [str_of_Z ch list_ascii_of_string]. unfold plain. cbn [forallb]. change (plain_char "-") with true.
  apply (digits_value (str_of_N (N.pos p))), str_of_N_all_digits.
Qed.
Lemma int_attr_count n : int_attr (str_of_nat n) = Ok (Z.of_nat n).
Proof. unfold int_attr. rewrite strip_word by apply word_str_of_N. now rewrite parse_count. Qed.

(** ** Arrays *)
Section Arrays.
Context (pk : packers) (big : bool) (bsz : nat) (mode : umode) (ht : string).
Definition file_head : uhead := UHead (match mode with UPacked c => Some c | _ => None end) ht big None.
(** An array of [n] numbers can be written *)
Definition writable (n : nat) : Prop :=
  match mode with
  | UAscii => True
  | UPlain => exists w, dget ht header_widths = Some w /\ (8 * N.of_nat n < capacity w)%N
  | UPacked c => exists w, dget ht header_widths = Some w /\ (8 * N.of_nat n < capacity w)%N /\ (N.of_nat bsz < capacity w)%N /\ 0 < n /\
      (exists q, bsz = 8 * q /\ 0 < q) /\ lossless pk c /\ (forall b, length b <= bsz -> (N.of_nat (length (pack pk c b)) < capacity w)%N)
  end.
(** A compressed text of this length can be read *)
Definition small_text (L : nat) : Prop :=
  match mode with UPacked _ => forall w, dget ht header_widths = Some w -> (N.of_nat L < capacity w)%N | _ => True end.
Definition item {X} (tok : X -> string) (byt : X -> bytes) (x : X) : uitem :=
  match mode with UAscii => UTok (tok x) | _ => UBytes (byt x) end.
Definition components_of (tail : list nat) : option nat := match tail with [k] => Some k | _ => None end.
Definition good_array (name dt : string) (tail : list nat) (items : list uitem) (e : xelem) : Prop :=
  exists text n, elem_ok e /\ seen e = [n] /\ texts e = [text] /\ xtag n = "DataArray" /\ dget "Name" (xattrs n) = Some name /\
    nc_attr n = option_map str_of_nat (components_of tail) /\
    (small_text (length text) -> read_data pk file_head n = Ok (Some (URaw dt (components_of tail) items))).

Lemma b64encode_length_ge l : length l <= length (b64encode l).
Proof. rewrite b64encode_length. pose proof (Nat.div_mod (length l + 2) 3). pose proof (Nat.mod_upper_bound (length l + 2) 3). lia. Qed.

Lemma chunks_le {A} n (l : list A) : 0 < n -> length (chunks n l) <= length l.
Proof.
  intros H. unfold chunks. rewrite chunks_fuel_length by (auto; lia). destruct l as [|a l]; [cbn [length]; rewrite Nat.div_small; lia|].
  apply Nat.lt_succ_r. apply Nat.div_lt_upper_bound; [lia|]. cbn [length]. nia.
Qed.
Lemma chunks_bounded {A} n (l : list A) : Forall (fun b => length b <= n) (chunks n l).
Proof.
  unfold chunks. generalize (length l) as f. intros f. revert l. induction f as [|f IH]; intros l; [constructor|]. cbn [chunks_fuel].
  destruct l as [|a l]; [constructor|]. constructor; [rewrite firstn_length; lia|]. apply IH.
Qed.
Lemma written_text name dt tail toks data : In dt vtu_known -> value_ok name = true ->
  forall text, plain text = true -> 
  (match mode with UAscii => Ok (ascii_text toks)
             | UPlain => do w <- of_option KeyError (dget ht header_widths); write_uncompressed big w data
             | UPacked c => do w <- of_option KeyError (dget ht header_widths); write_compressed (pack pk c) big w bsz data
             end) = Ok text ->
  (tail = [] \/ exists k, tail = [S k]) ->
  forall items, (match tail with [S k] => length items mod S k = 0 | _ => True end) ->
  (small_text (length text) -> 
     match mode with
     | UAscii => map UTok (split_ws (str (lf :: text ++ [lf]))) = items
     | _ => exists l, read_binary pk file_head (width_of dt) (cstrip (lf :: text ++ [lf])) = Ok l /\ map UBytes l = items
     end) ->
  exists e, xml_array pk big bsz mode ht name dt tail toks data = Ok e /\ good_array name dt tail items e.
Proof.
  intros Hdt Hn text Hp Ht Htail items Hdiv Hread. destruct (vtu_name_ok _ Hdt) as (vt & E1 & E2 & E3).
  unfold xml_array. rewrite E1. cbn [of_option bind]. rewrite Ht. cbn [bind]. eexists. split; [reflexivity|].
  assert (Hfmt : value_ok match mode with UAscii => "ascii" | _ => "binary" end = true) by (destruct mode; reflexivity).
  exists text. eexists. split; [|split; [cbn [seen map concat lead]; rewrite app_nil_r; reflexivity|]].
  { cbn [elem_ok map fold_right]. split; [reflexivity|]. split; [|split; [|auto]].
    - destruct Htail as [-> | (k & ->)]; cbn [app]; repeat (apply Forall_cons; [split; [reflexivity|cbn [snd]; auto using count_value]|]); constructor.
    - destruct Htail as [-> | (k & ->)]; cbn [app map fst]; repeat (apply NoDup_cons; [cbn; intuition discriminate|]); apply NoDup_nil. }
  split; [reflexivity|]. split; [reflexivity|]. split; [reflexivity|].
  assert (Enc : forall x cs, nc_attr (XNode "DataArray" ([("type", vt); ("Name", name)] ++
      match tail with [k] => [("NumberOfComponents", str_of_nat k)] | _ => [] end ++
      [("format", match mode with UAscii => "ascii" | _ => "binary" end)]) x cs) = option_map str_of_nat (components_of tail)).
  { intros x cs. unfold nc_attr. cbn [xattrs]. destruct Htail as [-> | (k & ->)]; [reflexivity|].
    change (dget "NumberOfComponents" _) with (Some (str_of_nat (S k))). cbn [components_of option_map].
    destruct (str_of_nat (S k)) eqn:E; [|reflexivity]. unfold str_of_nat in E. now apply str_of_N_nonempty in E. }
  split; [apply Enc|]. intros Hs. specialize (Hread Hs). unfold read_data. rewrite Enc. cbn [xattrs xtext].
  assert (Ef : dget "format" ([("type", vt); ("Name", name)] ++
      match tail with [k] => [("NumberOfComponents", str_of_nat k)] | _ => [] end ++
      [("format", match mode with UAscii => "ascii" | _ => "binary" end)]) = Some match mode with UAscii => "ascii" | _ => "binary" end).
  { destruct Htail as [-> | (k & ->)]; reflexivity. }
  rewrite Ef. change (dget "type" _) with (Some vt). cbn [of_option bind]. rewrite E2. cbn [of_option bind].
  assert (Ei : (if String.eqb match mode with UAscii => "ascii" | _ => "binary" end "ascii" then Ok (map UTok (split_ws (str (lf :: text ++ [lf]))))
     else if String.eqb match mode with UAscii => "ascii" | _ => "binary" end "binary" then
       do l <- read_binary pk file_head (width_of dt) (cstrip (lf :: text ++ [lf])); Ok (map UBytes l)
     else Err ReadError) = Ok items).
  { destruct mode; cbn [String.eqb Ascii.eqb Bool.eqb]; [now rewrite Hread|destruct Hread as (l & -> & <-); reflexivity..]. }
  match goal with |- bind ?x _ = _ => replace x with (Ok items) end.
  2:{ rewrite <- Ei. destruct mode; reflexivity. }
  cbn [bind]. destruct Htail as [-> | (k & ->)]; [reflexivity|]. cbn [components_of option_map].
  rewrite int_attr_count. cbn [bind]. destruct (Z.leb_spec (Z.of_nat (S k)) 0); [lia|]. rewrite Nat2Z.id, Hdiv. reflexivity.
Qed.

Lemma xml_array_read {X} (tok : X -> string) (byt : X -> bytes) name dt tail (l : list X) :
  In dt vtu_known -> value_ok name = true ->
  (tail = [] \/ exists k, tail = [S k]) -> (match tail with [S k] => length l mod S k = 0 | _ => True end) ->
  (mode = UAscii -> Forall (fun x => word (tok x) = true /\ plain (ch (tok x)) = true) l) ->
  (mode <> UAscii -> Forall (fun x => length (byt x) = width_of dt /\ Forall is_byte (byt x)) l) ->
  writable (length l) ->
  exists e, xml_array pk big bsz mode ht name dt tail (map tok l) (concat (map byt l)) = Ok e /\
    good_array name dt tail (map (item tok byt) l) e.
Proof.
  intros Hdt Hn Htail Hdiv Ha Hb Hw. destruct (vtu_width _ Hdt) as (q8 & Hq8 & Hwp).
  assert (H8 : width_of dt * length l <= 8 * length l) by (apply Nat.mul_le_mono_r; clear -Hq8; destruct q8; lia || nia).
  assert (Hdiv' : match tail with [S k] => length (map (item tok byt) l) mod S k = 0 | _ => True end).
  { destruct tail as [|[|k] [|]]; auto. now rewrite map_length. }
  assert (Hlen : mode <> UAscii -> length (concat (map byt l)) = width_of dt * length l).
  { intros Hm. specialize (Hb Hm). clear -Hb. induction Hb as [|x l [Hx _] H IH]; [cbn; lia|]. cbn [map concat length]. rewrite app_length, IH, Hx. lia. }
  assert (Hbyt : mode <> UAscii -> Forall (fun x => length x = width_of dt) (map byt l) /\ Forall (Forall is_byte) (map byt l)).
  { intros Hm. specialize (Hb Hm). split; apply Forall_map; (eapply Forall_impl; [|exact Hb]); intros x Hx; apply Hx. }
  pose proof (written_text name dt tail (map tok l) (concat (map byt l)) Hdt Hn) as W.
  unfold writable, small_text, item, file_head in *. destruct mode as [| |c]; cbv iota in *.
  - specialize (Ha eq_refl). eapply W; auto.
    + apply ascii_text_plain. apply Forall_map. eapply Forall_impl; [|exact Ha]. intros x Hx; apply Hx.
    + intros _. rewrite ascii_text_tokens, map_map; [reflexivity|]. apply forallb_forall. intros t Ht. apply in_map_iff in Ht.
      destruct Ht as (x & <- & Hx). rewrite Forall_forall in Ha. apply Ha. exact Hx.
  - destruct Hbyt as [B1 B2]; [discriminate|]. specialize (Hlen ltac:(discriminate)). destruct Hw as (w & Ew & Hsz).
    pose proof (header_width_pos _ _ Ew) as Hw0.
    destruct (uncompressed_ok big w (width_of dt) (map byt l) [] [] Hw0 Hwp B1 B2) as (text & Et & Er).
    { rewrite Hlen. lia. } { reflexivity. }
    assert (Hc : plain text = true /\ no_space (str text) = true).
    { unfold write_uncompressed in Et. destruct (header_item big w (N.of_nat (length (concat (map byt l))))) as [h|]; [|discriminate].
      cbn [bind] in Et. injection Et as <-. apply clean_plain, b64encode_clean. }
    destruct Hc as [C1 C2]. apply (W text); auto.
    + rewrite Ew. exact Et.
    + intros _. exists (map byt l). rewrite map_map. split; [|reflexivity]. rewrite cstrip_wrapped by exact C2.
      unfold read_binary. cbn [h_type h_comp h_big]. rewrite Ew. cbn [of_option bind]. rewrite app_nil_r in Er. exact Er.
  - destruct Hbyt as [B1 B2]; [discriminate|]. specialize (Hlen ltac:(discriminate)).
    destruct Hw as (w & Ew & Hsz & Hbs & Hn0 & (q & Eq & Hq) & Hl & Hpk). pose proof (header_width_pos _ _ Ew) as Hw0.
    assert (Ebs : bsz = width_of dt * (q8 * q)) by (rewrite Eq; nia).
    assert (Hbpos : 0 < bsz) by lia.
    set (data := concat (map byt l)) in *.
    assert (Hch : length (chunks bsz data) <= length data).
    { apply chunks_le. exact Hbpos. }
    assert (Hcl : Forall (fun b => length b <= bsz) (chunks bsz data)).
    { apply chunks_bounded. }
    assert (exists text, write_compressed (pack pk c) big w bsz data = Ok text /\ plain text = true /\ no_space (str text) = true /\
              length (concat (map (pack pk c) (chunks bsz data))) <= length text) as (text & Et & C1 & C2 & Hlt).
    { unfold write_compressed. rewrite header_items_ok.
      - cbn [bind]. eexists. split; [reflexivity|]. unfold chunk_it. split; [|split].
        + apply clean_plain. rewrite forallb_app, !b64encode_clean. reflexivity.
        + apply clean_plain. rewrite forallb_app, !b64encode_clean. reflexivity.
        + rewrite app_length. pose proof (b64encode_length_ge (concat (map (pack pk c) (chunks bsz data)))). lia.
      - assert (G : (Z.of_nat (length data) <= - (- Z.of_nat (length data) / Z.of_nat bsz) * Z.of_nat bsz < Z.of_nat (length data) + Z.of_nat bsz)%Z).
        { pose proof (Z.div_mod (- Z.of_nat (length data)) (Z.of_nat bsz)). pose proof (Z.mod_pos_bound (- Z.of_nat (length data)) (Z.of_nat bsz)). nia. }
        assert (Hd0 : 0 < length data) by (rewrite Hlen; nia).
        set (nb := (- (- Z.of_nat (length data) / Z.of_nat bsz))%Z) in *.
        assert (Hnb : (0 < nb <= Z.of_nat (length data))%Z) by nia.
        constructor; [rewrite Hlen in Hnb; lia|]. constructor; [exact Hbs|]. constructor; [nia|].
        apply Forall_map. apply Forall_map. eapply Forall_impl; [|exact Hcl]. intros b Hbl. now apply Hpk. }
    apply (W text); auto.
    + rewrite Ew. exact Et.
    + intros Hsm. specialize (Hsm w Ew). exists (map byt l). rewrite map_map. split; [|reflexivity]. rewrite cstrip_wrapped by exact C2.
      unfold read_binary. cbn [h_type h_comp h_big]. rewrite Ew. cbn [of_option bind].
      destruct (compressed_ok (pack pk c) (unpack pk c) big w (width_of dt) (q8 * q) (map byt l) [] []) as (text' & Et' & Er); auto.
      * intros b Hbb. apply Hl, Hbb.
      * intros b Hbb. apply Hl, Hbb.
      * nia.
      * destruct l; [cbn in Hn0; lia|discriminate].
      * rewrite <- Ebs. exact Hbs.
      * rewrite <- Ebs. fold data. unfold chunk_it. rewrite Hlen in Hch. lia.
      * rewrite <- Ebs. fold data. unfold chunk_it. rewrite Hlen in Hch. lia.
      * rewrite <- Ebs in Et'. fold data in Et'. rewrite Et in Et'. injection Et' as <-. rewrite app_nil_r in Er. exact Er.
Qed.
End Arrays.

(** ** Numbers *)
Section Numbers.
Context {V : Type} (nk : unums V) (fits : string -> V -> Prop).
Context (pk : packers) (big : bool) (bsz : nat) (mode : umode) (ht : string).
Hypothesis Hnums : match mode with UAscii => ascii_unums nk fits | _ => binary_unums nk big fits end.
Notation head := (file_head big mode ht).
Notation good_array := (good_array pk big mode ht).
Notation writable := (writable pk bsz mode ht).
Notation small := (small_text mode ht).

Lemma concat_same_length (rows : list (list V)) k : Forall (fun r => length r = k) rows -> length (concat rows) = length rows * k.
Proof. induction 1 as [|r rows Hr H IH]; [reflexivity|]. cbn [concat length]. rewrite app_length, IH, Hr. lia. Qed.
Lemma concat_singletons (rows : list (list V)) : Forall (fun r => length r = 1) rows -> map (fun x => [x]) (concat rows) = rows.
Proof.
  induction 1 as [|r rows Hr H IH]; [reflexivity|]. cbn [concat]. rewrite map_app, IH. destruct r as [|x [|]]; try discriminate. reflexivity.
Qed.

Lemma num_array_ok name a : value_ok name = true -> uarray_ok fits (va_dtype a) (va_tail a) (va_rows a) ->
  writable (length (concat (va_rows a))) ->
  exists e items, num_array nk pk big bsz mode ht name a = Ok e /\ good_array name (va_dtype a) (va_tail a) items e /\
    length items = length (concat (va_rows a)) /\
    num_rows nk head (URaw (va_dtype a) (components_of (va_tail a)) items) = Ok a.
Proof.
  destruct a as [dt tail rows]. cbn [va_dtype va_tail va_rows]. intros Hn (Hdt & Htail & Hrows) Hw.
  assert (Hf : Forall (fits dt) (concat rows)).
  { apply Forall_concat. eapply Forall_impl; [|exact Hrows]. intros r Hr; apply Hr. }
  destruct (xml_array_read pk big bsz mode ht (u_fmt nk dt) (File.enc (u_codec nk big dt)) name dt tail (concat rows) Hdt Hn Htail) as (e & He & Hg).
  - destruct Htail as [-> | (k & ->)]; [exact I|]. rewrite (concat_same_length _ (S k)).
    + apply Nat.mod_mul. lia.
    + eapply Forall_impl; [|exact Hrows]. intros r [Hr _]. cbn [fold_right] in Hr. lia.
  - intros ->. eapply Forall_impl; [|exact Hf]. intros v Hv. destruct (Hnums dt v Hv) as (A & B & _). auto.
  - intros Hm. assert (Hb : binary_unums nk big fits) by (destruct mode; [congruence|exact Hnums..]).
    eapply Forall_impl; [|exact Hf]. intros v Hv. destruct (Hb dt v Hv) as (A & B & _). auto.
  - exact Hw.
  - eexists. eexists. split; [exact He|]. split; [exact Hg|]. split; [now rewrite map_length|].
    unfold num_rows. cbn [ur_dtype ur_items ur_nc].
    assert (Em : mapM (item_num nk (h_big head) dt) (map (item mode (u_fmt nk dt) (File.enc (u_codec nk big dt))) (concat rows)) = Ok (concat rows)).
    { apply mapM_Forall2. clear -Hf Hnums. induction Hf as [|v l Hv H IH]; cbn [map]; constructor; [|exact IH]. unfold item_num, item, file_head. cbn [h_big].
      destruct mode; destruct (Hnums dt v Hv) as (_ & B & C); rewrite C; reflexivity. }
    rewrite Em. cbn [bind]. destruct Htail as [-> | (k & ->)]; cbn [components_of].
    + rewrite concat_singletons; [reflexivity|]. eapply Forall_impl; [|exact Hrows]. intros r [Hr _]. exact Hr.
    + assert (Hk : Forall (fun r => length r = S k) rows).
      { eapply Forall_impl; [|exact Hrows]. intros r [Hr _]. cbn [fold_right] in Hr. lia. }
      rewrite (concat_same_length _ _ Hk), Nat.div_mul by lia. now rewrite rows_of_concat.
Qed.

Lemma index_known dt : In dt vtu_index -> In dt vtu_known /\ startswith dt "float" = false /\ startswith dt "uint" = false.
Proof.
  cbn [In vtu_index]. intros H. repeat (destruct H as [<-|H]; [split; [cbv; tauto|split; reflexivity]|]). destruct H.
Qed.
Lemma int_array_ok name idt l : value_ok name = true -> In idt vtu_index -> Forall (index_fits (width_of idt)) l -> writable (length l) ->
  exists e items, int_array pk big bsz mode ht name idt l = Ok e /\ good_array name idt [] items e /\
    mapM (item_int big idt) items = Ok l /\ length items = length l.
Proof.
  intros Hn Hi Hf Hw. destruct (index_known _ Hi) as (Hdt & H1 & H2). destruct (vtu_width _ Hdt) as (_ & _ & Hpos).
  destruct (xml_array_read pk big bsz mode ht str_of_Z (sint_bytes big (width_of idt)) name idt [] l Hdt Hn) as (e & He & Hg); auto.
  - intros _. apply Forall_forall. intros z _. split; [apply word_str_of_Z|apply int_plain].
  - intros _. apply Forall_forall. intros z _. split; [apply sint_bytes_length|apply sint_bytes_ok].
  - eexists. eexists. split; [exact He|]. split; [exact Hg|]. split; [|now rewrite map_length].
    apply mapM_Forall2. clear -Hf H1 H2 Hpos. induction Hf as [|z l Hz H IH]; cbn [map]; constructor; [|exact IH].
    unfold item_int, item. destruct mode; [now rewrite parse_Z_str_of_Z|rewrite H1, H2, sint_value_bytes; [reflexivity|now apply VtkPort.index_range]..].
Qed.

(** ** Data of points and cells *)
Definition all_small (es : list xelem) : Prop := Forall (fun t => small (length t)) (concat (map texts es)).
Lemma all_small_cons e es : all_small (e :: es) <-> Forall (fun t => small (length t)) (texts e) /\ all_small es.
Proof. unfold all_small. cbn [map concat]. apply Forall_app. Qed.
Lemma all_small_app l1 l2 : all_small (l1 ++ l2) <-> all_small l1 /\ all_small l2.
Proof. unfold all_small. rewrite map_app, concat_app. apply Forall_app. Qed.

Lemma arrays_ok (d : dict (varr V)) :
  Forall (fun na => value_ok (fst na) = true /\ uarray_ok fits (va_dtype (snd na)) (va_tail (snd na)) (va_rows (snd na)) /\
            writable (length (concat (va_rows (snd na))))) d -> NoDup (dkeys d) ->
  exists es, mapM (fun na => num_array nk pk big bsz mode ht (fst na) (snd na)) d = Ok es /\ Forall elem_ok es /\
    (all_small es -> forall acc, (forall k, In k (dkeys acc) -> ~ In k (dkeys d)) ->
       foldM (fun d a =>
         if negb (String.eqb (xtag a) "DataArray") then Err ReadError else
         do r <- read_data pk head a;
         do n <- of_option KeyError (dget "Name" (xattrs a));
         match r with None => Ok d | Some r => do v <- num_rows nk head r; Ok (dset n v d) end) acc (concat (map seen es)) = Ok (acc ++ d) /\
       foldM (fun d a =>
         do r <- read_sound pk head a;
         do n <- of_option KeyError (dget "Name" (xattrs a));
         do v <- num_rows nk head r; Ok (dset n v d)) acc (concat (map seen es)) = Ok (acc ++ d) /\
       forallb (fun a => String.eqb (xtag a) "DataArray") (concat (map seen es)) = true).
Proof.
  induction 1 as [|[name a] d (Hn & Ha & Hw) Hd IH]; intros Hnd.
  - exists []. split; [reflexivity|]. split; [constructor|]. intros _ acc _. cbn. rewrite app_nil_r. auto.
  - cbn [fst snd] in *. unfold dkeys in Hnd. cbn [map fst] in Hnd. inversion Hnd as [|x l Hni Hnd']; subst.
    destruct (IH Hnd') as (es & Em & Hes & Hr). destruct (num_array_ok name a Hn Ha Hw) as (e & items & Ee & Hg & _ & Hrows).
    exists (e :: es). split; [cbn [mapM fst snd]; rewrite Ee; cbn [bind]; rewrite Em; reflexivity|].
    destruct Hg as (text & n & G1 & G2 & G3 & G4 & G5 & G6 & G7). split; [constructor; auto|].
    intros Hs acc Hacc. apply all_small_cons in Hs. destruct Hs as [Hs1 Hs2]. rewrite G3 in Hs1. inversion Hs1 as [|x l Hsm _]; subst.
    specialize (G7 Hsm). cbn [map concat]. rewrite G2. cbn [app foldM forallb]. unfold read_sound. rewrite G4, G5, G7. cbn [of_option bind String.eqb Ascii.eqb Bool.eqb negb].
    rewrite Hrows. cbn [bind andb].
    assert (Hfr : ~ In name (dkeys acc)) by (intros Hin; apply (Hacc name Hin); unfold dkeys; cbn; auto).
    rewrite dset_notin by exact Hfr.
    destruct (Hr Hs2 (acc ++ [(name, a)])) as (R1 & R2 & R3).
    { intros k Hk Hin. unfold dkeys in Hk. rewrite map_app in Hk. apply in_app_or in Hk. destruct Hk as [Hk|[<-|[]]]; [|now apply Hni].
      apply (Hacc k Hk). unfold dkeys. cbn. auto. }
    rewrite <- app_assoc in R1, R2. auto.
Qed.

Lemma data_elem_ok tag (d : dict (varr V)) :
  Forall (fun na => value_ok (fst na) = true /\ uarray_ok fits (va_dtype (snd na)) (va_tail (snd na)) (va_rows (snd na)) /\
            writable (length (concat (va_rows (snd na))))) d -> NoDup (dkeys d) -> tag_ok tag = true ->
  exists es, data_elem nk pk big bsz mode ht tag d = Ok es /\ Forall elem_ok es /\ (d = [] -> es = []) /\
    (d <> [] -> exists t l, concat (map seen es) = [XNode tag [] t l] /\
      (all_small es -> read_point_data nk pk head l = Ok d /\ read_cell_data nk pk head l = Ok d)).
Proof.
  intros Hd Hnd Ht. destruct d as [|na d']; [exists []; split; [reflexivity|]; split; [constructor|]; split; [auto|congruence]|].
  destruct (arrays_ok _ Hd Hnd) as (es & Em & Hes & Hr). unfold data_elem. rewrite Em. cbn [bind].
  eexists. split; [reflexivity|]. split.
  { constructor; [|constructor]. cbn [elem_ok]. split; [exact Ht|]. split; [constructor|]. split; [apply NoDup_nil|]. split; [exact I|].
    clear -Hes. induction Hes; cbn; auto. }
  split; [discriminate|]. intros _. exists ((lf :: []) ++ lead es), (concat (map seen es)). split; [reflexivity|]. intros Hs.
  assert (Hs' : all_small es).
  { unfold all_small in *. cbn [map concat texts app] in Hs. now rewrite app_nil_r in Hs. }
  destruct (Hr Hs' [] ltac:(intros k [])) as (R1 & R2 & R3). cbn [app] in R1, R2. unfold read_point_data, read_cell_data, read_named.
  rewrite R3. auto.
Qed.

(** ** Cells *)
Lemma elem_children tag attrs es : tag_ok tag = true -> Forall (fun kv => tag_ok (fst kv) = true /\ value_ok (snd kv) = true) attrs ->
  NoDup (map fst attrs) -> Forall elem_ok es -> elem_ok (XElem tag attrs None es).
Proof.
  intros H1 H2 H3 H4. cbn [elem_ok]. split; [exact H1|]. split; [exact H2|]. split; [exact H3|]. split; [exact I|].
  induction H4; cbn; auto.
Qed.
Lemma plain_types t n : In (t, n) vtk_fixed \/ In t vtk_varying -> startswith t "polyhedron" = false /\ vcode t <> 42%Z.
Proof.
  intros [H|H].
  - cbn [In vtk_fixed] in H. repeat (destruct H as [H|H]; [injection H as <- _; split; [reflexivity|vm_compute; discriminate]|]). destruct H.
  - cbn [In vtk_varying] in H. repeat (destruct H as [<-|H]; [split; [reflexivity|vm_compute; discriminate]|]). destruct H.
Qed.
Lemma fits_wider w w' z : w <= w' -> index_fits w z -> index_fits w' z.
Proof.
  intros H [A B]. unfold index_fits.
  assert (2 ^ (8 * Z.of_nat w - 1) <= 2 ^ (8 * Z.of_nat w' - 1))%Z by (apply Z.pow_le_mono_r; lia). lia.
Qed.
Lemma index_width_pos idt : In idt vtu_index -> 0 < width_of idt <= 8.
Proof. cbn [In vtu_index]. intros H. repeat (destruct H as [<-|H]; [vm_compute; lia|]). destruct H. Qed.

Lemma cells_elem_ok idt bs : bs <> [] -> Forall block_ok bs -> Forall nonempty_block bs -> In idt vtu_index ->
  Forall (fun b => Forall (Forall (index_fits (width_of idt))) (bdata b)) bs ->
  index_fits (width_of idt) (Z.of_nat (length (concat (map snd (all_cells bs))))) ->
  writable (length (concat (map snd (all_cells bs)))) -> writable (length (all_cells bs)) ->
  exists es t l, cells_elem pk big bsz mode ht idt bs = Ok es /\ Forall elem_ok es /\ concat (map seen es) = [XNode "Cells" [] t l] /\
    (all_small es -> read_cells_elem pk head (Z.of_nat (total_cells bs)) (XNode "Cells" [] t l) =
       Ok (flat_map Vtk51.enc (all_cells bs), ends 0 (all_cells bs), map code_of (all_cells bs))).
Proof.
  intros Hne Hok Hnb Hi Hix Htot Hw1 Hw2. pose proof (blocks_ok_cells _ Hok) as HL. pose proof (index_width_pos _ Hi) as Hwi.
  set (L := all_cells bs) in *.
  assert (F1 : Forall (index_fits (width_of idt)) (flat_map Vtk51.enc L)).
  { apply Forall_flat_map. assert (HI : Forall (fun tc => Forall (index_fits (width_of idt)) (snd tc)) L) by (apply all_cells_Forall; exact Hix).
    rewrite Forall_forall in *. intros tc Htc. unfold Vtk51.enc. apply vperm_Forall; auto. }
  assert (F2 : Forall (index_fits (width_of idt)) (ends 0 L)).
  { eapply Forall_impl; [|apply (ends_bound 0 L (Z.of_nat (length (concat (map snd L)))) ltac:(lia) ltac:(lia))].
    intros z Hz. destruct Htot as [T1 T2]. unfold index_fits. cbv beta in Hz. split; [|lia].
    assert (0 <= 2 ^ (8 * Z.of_nat (width_of idt) - 1))%Z by (apply Z.pow_nonneg; lia). lia. }
  assert (F3 : Forall (index_fits (width_of "int64")) (map code_of L)).
  { apply Forall_map. eapply Forall_impl; [|exact HL]. intros tc Htc. apply (fits_wider 4); [vm_compute; lia|]. now apply code_fits. }
  destruct (int_array_ok "connectivity" idt _ eq_refl Hi F1) as (c & ci & Ec & Gc & Mc & Lc); [rewrite flat_enc_length by exact HL; exact Hw1|].
  destruct (int_array_ok "offsets" idt _ eq_refl Hi F2) as (o & oi & Eo & Go & Mo & Lo); [rewrite ends_length; exact Hw2|].
  destruct (int_array_ok "types" "int64" _ eq_refl ltac:(cbv; tauto) F3) as (t & ti & Et & Gt & Mt & Lt); [rewrite map_length; exact Hw2|].
  destruct Gc as (xc & nc & C1 & C2 & C3 & C4 & C5 & _ & C7). destruct Go as (xo & no & O1 & O2 & O3 & O4 & O5 & _ & O7).
  destruct Gt as (xt & nt & T1 & T2 & T3 & T4 & T5 & _ & T7).
  exists [XElem "Cells" [] None [c; o; t]], ([lf] ++ lead [c; o; t]), [nc; no; nt]. split.
  { unfold cells_elem. destruct bs as [|b bs']; [congruence|]. rewrite write_conn_ok, write_types_ok by auto.
    rewrite offsets_vtu_ok; auto; [|eapply Forall_impl; [|exact Hok]; apply block_rect]. cbn [bind]. fold L. rewrite Ec, Eo, Et. reflexivity. }
  split.
  { constructor; [|constructor]. apply elem_children; [reflexivity|constructor|constructor|]. repeat (constructor; [assumption|]). constructor. }
  split; [cbn [map concat seen app]; rewrite C2, O2, T2; reflexivity|].
  intros Hs. unfold all_small in Hs. cbn [map concat texts app] in Hs. rewrite C3, O3, T3 in Hs. cbn [app] in Hs.
  inversion Hs as [|x l S1 Hs1]; subst. inversion Hs1 as [|x l S2 Hs2]; subst. inversion Hs2 as [|x l S3 _]; subst.
  specialize (C7 S1). specialize (O7 S2). specialize (T7 S3).
  unfold read_cells_elem, read_int_arrays. cbn [xchildren foldM]. unfold read_sound. rewrite C4, C5, C7, O4, O5, O7, T4, T5, T7.
  cbn [String.eqb Ascii.eqb Bool.eqb negb of_option bind h_big file_head ur_dtype ur_items ur_len ur_nc components_of].
  rewrite Mc, Mo, Mt. cbn [bind]. rewrite Lc, Lo, Lt, flat_enc_length, ends_length, map_length by exact HL.
  cbn [dset dget String.eqb Ascii.eqb Bool.eqb of_option bind fst snd].
  rewrite total_cells_length. fold L. rewrite Z.eqb_refl. reflexivity.
Qed.

(** ** Points *)
Lemma uin_3d_rows (pts : list (list V)) dt : (Forall (fun q => length q = 2) pts \/ Forall (fun q => length q = 3) pts) ->
  Forall (Forall (fits dt)) pts -> (forall dt v, fits dt v -> fits dt (u_zero nk)) ->
  upad_points nk pts = map (uin_3d nk) pts /\ Forall (fun r => length r = 3 /\ Forall (fits dt) r) (map (uin_3d nk) pts).
Proof.
  intros H Hf Hz. split.
  - destruct H as [H|H].
    + assert (E : map (fun r => r ++ [u_zero nk]) pts = map (uin_3d nk) pts).
      { apply map_ext_in. intros r Hr. rewrite Forall_forall in H. specialize (H r Hr). destruct r as [|x [|y [|]]]; try discriminate. reflexivity. }
      rewrite <- E. destruct pts as [|r pts]; [reflexivity|]. inversion H as [|? ? H2 _]; subst. destruct r as [|x [|y [|]]]; try discriminate. reflexivity.
    + assert (E : map (uin_3d nk) pts = pts).
      { rewrite <- (map_id pts) at 2. apply map_ext_in. intros r Hr. rewrite Forall_forall in H. specialize (H r Hr). destruct r as [|x [|y [|z [|]]]]; try discriminate. reflexivity. }
      rewrite E. destruct pts as [|r pts]; [reflexivity|]. inversion H as [|? ? H2 _]; subst. destruct r as [|x [|y [|z [|]]]]; try discriminate. reflexivity.
  - apply Forall_map. apply Forall_forall. intros r Hr. rewrite Forall_forall in Hf. specialize (Hf r Hr).
    assert (Hl : length r = 2 \/ length r = 3) by (destruct H as [H|H]; rewrite Forall_forall in H; auto). clear H Hr.
    destruct r as [|x [|y [|z [|]]]]; cbn in Hl; try lia; cbn [uin_3d length]; split; auto.
    inversion Hf as [|? ? Hx H1]; subst. inversion H1 as [|? ? Hy _]; subst. repeat (constructor; [assumption|]). constructor; [|constructor]. eauto.
Qed.
Lemma points_elem_ok dt (rows : list (list V)) : In dt vtu_known -> Forall (fun r => length r = 3 /\ Forall (fits dt) r) rows ->
  writable (3 * length rows) ->
  exists e t l, num_array nk pk big bsz mode ht "Points" (VArr dt [match rows with [] => 3 | r :: _ => length r end] rows) = Ok e /\
    elem_ok e /\ seen (XElem "Points" [] None [e]) = [XNode "Points" [] t l] /\
    (all_small [e] -> read_points_elem nk pk head (Z.of_nat (length rows)) (XNode "Points" [] t l) = Ok (VArr dt [3] rows)).
Proof.
  intros Hdt Hr Hw. assert (E3 : match rows with [] => 3 | r :: _ => length r end = 3).
  { destruct rows as [|r rows]; [reflexivity|]. inversion Hr as [|? ? [H _] _]; subst. exact H. }
  rewrite E3. assert (Hk : Forall (fun r : list V => length r = 3) rows) by (eapply Forall_impl; [|exact Hr]; intros r H; apply H).
  destruct (num_array_ok "Points" (VArr dt [3] rows)) as (e & items & Ee & Hg & Hl & Hrows); cbn [va_dtype va_tail va_rows] in *.
  - reflexivity.
  - split; [exact Hdt|]. split; [right; exists 2; reflexivity|]. exact Hr.
  - rewrite (concat_same_length _ _ Hk), Nat.mul_comm. exact Hw.
  - destruct Hg as (text & n & G1 & G2 & G3 & G4 & G5 & G6 & G7). exists e, ([lf] ++ lead [e]), [n].
    split; [exact Ee|]. split; [exact G1|]. split; [cbn [map concat seen app]; rewrite G2; reflexivity|].
    intros Hs. unfold all_small in Hs. cbn [map concat] in Hs. rewrite G3 in Hs. inversion Hs as [|x l Hsm _]; subst. specialize (G7 Hsm).
    unfold read_points_elem. cbn [xchildren]. unfold read_sound. rewrite G4, G6, G7.
    cbn [String.eqb Ascii.eqb Bool.eqb negb of_option bind components_of option_map]. rewrite int_attr_count. cbn [bind].
    cbn [components_of] in Hrows. rewrite Hrows. cbn [bind ur_items va_dtype va_rows].
    replace (Z.of_nat (length rows) <? 0)%Z with false by (symmetry; apply Z.ltb_ge; lia).
    change (Z.of_nat 3 <? 0)%Z with false. cbn [orb]. rewrite Hl, (concat_same_length _ _ Hk), !Nat2Z.id, Nat.eqb_refl.
    now rewrite rows_of_concat.
Qed.

(** ** The mesh *)
Lemma mapM_keys {X} (F : string -> result (string * X)) (d : dict X) : (forall kv, In kv d -> F (fst kv) = Ok kv) -> mapM F (dkeys d) = Ok d.
Proof.
  unfold dkeys. induction d as [|kv d IH]; intros H; [reflexivity|]. cbn [map mapM]. rewrite (H kv (or_introl eq_refl)). cbn [bind].
  rewrite IH by (intros kv' Hin; apply H; now right). reflexivity.
Qed.
Lemma merge_one (d : dict (varr V)) : NoDup (dkeys d) -> merge_point_data [d] = Ok d.
Proof.
  intros Hnd. unfold merge_point_data. apply mapM_keys. intros [k v] Hin. cbn [fst mapM]. rewrite (In_dget k v d Hnd Hin).
  cbn [of_option bind concat_arrays forallb]. unfold tails_equal. destruct (list_eq_dec _ _ _) as [_|]; [|congruence].
  cbn [andb bind flat_map]. rewrite app_nil_r. destruct v. reflexivity.
Qed.
Lemma urows_length idt m nc : vtu_mesh nk fits idt m -> In nc (vm_cdata m) -> length (concat (vc_rows (snd nc))) = length (all_cells (vm_cells m)).
Proof.
  intros H Hin. pose proof (uk_cdata _ _ _ _ H) as Hd. rewrite Forall_forall in Hd. destruct (Hd _ Hin) as (_ & _ & E).
  rewrite length_concat_sum, E, all_cells_length. reflexivity.
Qed.
Lemma ubuild_ok idt m : vtu_mesh nk fits idt m -> Forall block_ok (vm_cells m) ->
  build_mesh (Some (vm_dtype m, map (uin_3d nk) (vm_points m))) (regroup (all_cells (vm_cells m))) (vm_pdata m) (vm_cdata (vtu_image nk m)) [] =
    Ok (vtu_image nk m).
Proof.
  intros H Hb. unfold build_mesh. cbn [of_option bind fst snd]. destruct (cells_dims _ (blocks_ok_cells _ Hb)) as (ds & ->). cbn [bind].
  assert (E1 : forallb (fun na : string * varr V => Nat.eqb (length (va_rows (snd na))) (length (map (uin_3d nk) (vm_points m)))) (vm_pdata m) = true).
  { apply forallb_forall. intros na Hin. pose proof (uk_pdata _ _ _ _ H) as Hd. rewrite Forall_forall in Hd. destruct (Hd _ Hin) as (_ & _ & E).
    rewrite map_length, E. apply Nat.eqb_refl. }
  rewrite E1. cbn [negb]. cbn iota.
  match goal with |- (if negb ?x then _ else _) = _ => assert (E2 : x = true) end.
  { apply forallb_forall. intros nc Hin. unfold vtu_image in Hin. cbn [vm_cdata] in Hin.
    apply in_map_iff in Hin. destruct Hin as (nb & <- & Hin). cbn [snd vc_rows].
    pose proof (urows_length _ _ _ H Hin) as El. set (bs := regroup (all_cells (vm_cells m))).
    assert (Em : map (@length _) (data_for bs (concat (vc_rows (snd nb)))) = map blen bs).
    { apply data_for_length. unfold bs. rewrite regroup_cells. exact El. }
    revert Em. generalize (data_for bs (concat (vc_rows (snd nb)))) as rows. generalize bs. clear.
    intros bs. induction bs as [|b bs IH]; intros [|r rows] Em; try discriminate; [reflexivity|]. cbn [map] in Em. injection Em as E1 E2.
    specialize (IH _ E2). apply andb_true_iff in IH. destruct IH as [A B]. cbn [length combine forallb fst snd]. rewrite E1, Nat.eqb_refl.
    apply andb_true_iff. split; [exact A|exact B]. }
  rewrite E2. cbn [negb]. reflexivity.
Qed.

Definition uraw_of (c : vcd V) : varr V := VArr (vc_dtype c) (vc_tail c) (concat (vc_rows c)).
Lemma organize_ok idt m : vtu_mesh nk fits idt m -> Forall block_ok (vm_cells m) -> Forall nonempty_block (vm_cells m) ->
  organize_cells [0] [(flat_map Vtk51.enc (all_cells (vm_cells m)), ends 0 (all_cells (vm_cells m)), map code_of (all_cells (vm_cells m)))]
    [map (fun nc => (fst nc, uraw_of (snd nc))) (vm_cdata m)] =
    Ok (regroup (all_cells (vm_cells m)), vm_cdata (vtu_image nk m)).
Proof.
  intros H Hb Hnb. pose proof (blocks_ok_cells _ Hb) as HL. pose proof (all_cells_ne _ (uk_some _ _ _ _ H) Hnb) as HLne.
  destruct (vtk_cells_from_data_ok _ HL HLne) as (sp & E2 & E3). unfold organize_cells. cbn [length Nat.eqb negb existsb snd].
  assert (E42 : existsb (Z.eqb 42) (map code_of (all_cells (vm_cells m))) = false).
  { apply Bool.not_true_iff_false. intros E. apply existsb_exists in E. destruct E as (z & Hz & E). apply Z.eqb_eq in E. subst z.
    apply in_map_iff in Hz. destruct Hz as (tc & E & Htc). rewrite Forall_forall in HL. specialize (HL _ Htc).
    unfold code_of in E. destruct HL as [HL|HL]; [apply (plain_types (fst tc) (length (snd tc)) (or_introl HL)) in E; auto|].
    apply (plain_types (fst tc) 0 (or_intror HL)) in E. auto. }
  rewrite E42. cbn [orb combine foldM]. rewrite E2. cbn [bind fst snd].
  rewrite split_data_some by (right; eapply pieces_nonempty; eauto). f_equal. f_equal.
  - rewrite <- (map_id (regroup _)) at 2. apply map_ext. intros [t d]. cbn [btype bdata]. f_equal. rewrite <- (map_id d) at 2. apply map_ext.
    intros c. rewrite <- (map_id c) at 2. apply map_ext. intros z. lia.
  - unfold vtu_image. cbn [vm_cdata]. rewrite map_map. apply map_ext_in. intros nc Hin. cbn [fst snd]. unfold uraw_of. cbn [va_dtype va_tail va_rows].
    rewrite E3 by (exact (urows_length _ _ _ H Hin)). reflexivity.
Qed.
Lemma raw_ok idt m : vtu_mesh nk fits idt m ->
  mapM (fun nc => do a <- raw_cell_data (snd nc); Ok (fst nc, a)) (vm_cdata m) = Ok (map (fun nc => (fst nc, uraw_of (snd nc))) (vm_cdata m)).
Proof.
  intros H. pose proof (uk_some _ _ _ _ H) as Hne. pose proof (uk_cdata _ _ _ _ H) as Hd.
  induction Hd as [|nc l (_ & _ & E) Hd IH]; [reflexivity|]. cbn [mapM map]. unfold raw_cell_data at 1. destruct (vc_rows (snd nc)) as [|r rows] eqn:Er.
  - destruct (vm_cells m); [congruence|discriminate].
  - cbn [bind]. rewrite IH. cbn [bind]. unfold uraw_of. rewrite Er. reflexivity.
Qed.

(** ** The file *)
Lemma seen_elem tag attrs text cs : seen (XElem tag attrs text cs) =
  [XNode tag attrs ((lf :: match text with Some t => t ++ [lf] | None => [] end) ++ lead cs) (concat (map seen cs))].
Proof. reflexivity. Qed.
Hypothesis Hcomp : match mode with UPacked c => In c ["vtkLZMADataCompressor"; "vtkZLibDataCompressor"] | _ => True end.
Theorem vtu_file native given ver idt m : vtu_mesh nk fits idt m -> Forall block_ok (vm_cells m) -> Forall nonempty_block (vm_cells m) ->
  Forall writable (array_sizes m) -> comment_ok ver = true -> value_ok ht = true -> (given = false -> ht = "UInt32") ->
  exists t, vtu_tree nk pk big bsz mode ht given ver idt m = Ok t /\
    (small (length (print_doc t)) -> read_vtu nk pk native (print_doc t) = Ok (vtu_image nk m)).
Proof.
  intros H Hb Hnb Hw Hver Hht Hgiven. pose proof (blocks_ok_cells _ Hb) as HL.
  unfold array_sizes in Hw. apply Forall_app in Hw. destruct Hw as [Hw1 Hw2]. apply Forall_app in Hw2. destruct Hw2 as [Hw2 Hw3].
  inversion Hw1 as [|x l W1 Hw1']; subst. inversion Hw1' as [|x l W2 Hw1'']; subst. inversion Hw1'' as [|x l W3 _]; subst.
  rewrite Forall_map in Hw2, Hw3. clear Hw1 Hw1' Hw1''.
  destruct (uk_points _ _ _ _ H) as [P1 P2]. destruct (uin_3d_rows _ _ P1 P2 (uk_zero _ _ _ _ H)) as [P3 P4].
  destruct (points_elem_ok _ _ (uk_points_type _ _ _ _ H) P4) as (pe & pt & pl & Ep & Kp & Sp & Rp); [rewrite map_length; exact W1|].
  destruct (cells_elem_ok idt _ (uk_some _ _ _ _ H) Hb Hnb (uk_index_type _ _ _ _ H) (uk_index _ _ _ _ H) (uk_total _ _ _ _ H) W2 W3)
    as (ce & ct & cl & Ec & Kc & Sc & Rc).
  destruct (data_elem_ok "PointData" (vm_pdata m)) as (pd & Epd & Kpd & Npd & Rpd); [|exact (uk_pnames _ _ _ _ H)|reflexivity|].
  { pose proof (uk_pdata _ _ _ _ H) as Hd. rewrite Forall_forall in *. intros na Hin. destruct (Hd na Hin) as (A & B & _). auto. }
  set (raws := map (fun nc => (fst nc, uraw_of (snd nc))) (vm_cdata m)).
  destruct (data_elem_ok "CellData" raws) as (cd & Ecd & Kcd & Ncd & Rcd); [| |reflexivity|].
  { unfold raws. apply Forall_map. pose proof (uk_cdata _ _ _ _ H) as Hd. rewrite Forall_forall in *. intros nc Hin. destruct (Hd nc Hin) as (A & B & _).
    cbn [fst snd]. unfold uraw_of. cbn [va_dtype va_tail va_rows]. auto. }
  { unfold raws, dkeys. rewrite map_map. exact (uk_cnames _ _ _ _ H). }
  assert (Epoly : existsb (fun b => startswith (btype b) "polyhedron") (vm_cells m) = false).
  { apply Bool.not_true_iff_false. intros E. apply existsb_exists in E. destruct E as (b & Hin & E). rewrite Forall_forall in Hb, Hnb.
    specialize (Hb b Hin). specialize (Hnb b Hin). unfold nonempty_block in Hnb.
    destruct (bdata b) as [|c cs] eqn:Eb; [congruence|].
    assert (Hc : cell_ok (btype b, c)).
    { rewrite Forall_forall in HL. apply HL. unfold all_cells. apply in_flat_map. exists b. split; [exact Hin|]. rewrite Eb. now left. }
    destruct Hc as [Hc|Hc]; [destruct (plain_types _ _ (or_introl Hc)) as [F _]|destruct (plain_types _ 0 (or_intror Hc)) as [F _]]; cbn [fst] in F; congruence. }
  unfold vtu_tree. rewrite Epoly, P3, Ep. cbn [bind]. rewrite Ec. cbn [bind]. rewrite Epd. cbn [bind]. rewrite (raw_ok _ _ H). cbn [bind]. fold raws.
  rewrite Ecd. cbn [bind].
  set (piece := XElem "Piece" _ _ _).
  set (attrs := _ ++ header_attr _ _ ++ _).
  eexists. split; [reflexivity|]. intros Hsm.
  assert (Kpiece : elem_ok piece).
  { apply elem_children; [reflexivity| |apply (NoDup_count_occ' string_dec); intros x Hx; cbn [map fst In] in Hx; destruct Hx as [<-|[<-|[]]]; reflexivity|].
    - constructor; [split; [reflexivity|apply count_value]|]. constructor; [split; [reflexivity|apply count_value]|]. constructor.
    - constructor; [apply elem_children; [reflexivity|constructor|constructor|constructor; [exact Kp|constructor]]|].
      apply Forall_app. split; [exact Kc|]. apply Forall_app. split; assumption. }
  assert (Kattrs : Forall (fun kv => tag_ok (fst kv) = true /\ value_ok (snd kv) = true) attrs /\ NoDup (map fst attrs)).
  { unfold attrs, header_attr, compressor_attr. split.
    - repeat (constructor; [split; [reflexivity|]; first [reflexivity|destruct big; reflexivity]|]). apply Forall_app. split.
      + destruct given; [|constructor]. constructor; [split; [reflexivity|exact Hht]|constructor].
      + destruct mode as [| |c]; [constructor|constructor|]. constructor; [split; [reflexivity|]|constructor]. cbn [snd].
        destruct Hcomp as [<-|[<-|[]]]; reflexivity.
    - destruct given, mode; cbn [map fst app]; apply (NoDup_count_occ' string_dec); intros x Hx; cbn [In] in Hx;
      repeat (destruct Hx as [<-|Hx]; [reflexivity|]); destruct Hx. }
  destruct Kattrs as [Ka1 Ka2].
  set (tree := XElem "VTKFile" attrs None _) in *.
  assert (Kt : elem_ok tree).
  { apply elem_children; auto. constructor; [cbn [elem_ok]; unfold comment_ok in *|].
    - rewrite ch_app, forallb_app, Hver. reflexivity.
    - constructor; [|constructor]. apply elem_children; [reflexivity|constructor|constructor|]. constructor; [exact Kpiece|constructor]. }
  set (pnode := XNode "Piece" [("NumberOfPoints", str_of_nat (length (vm_points m))); ("NumberOfCells", str_of_nat (total_cells (vm_cells m)))]
                  ([lf] ++ lead (XElem "Points" [] None [pe] :: ce ++ pd ++ cd))
                  (XNode "Points" [] pt pl :: XNode "Cells" [] ct cl :: concat (map seen pd) ++ concat (map seen cd))).
  assert (St : seen tree = [XNode "VTKFile" attrs ([lf] ++ [lf]) [XNode "UnstructuredGrid" [] [lf] [pnode]]]).
  { assert (E : seen piece = [pnode]).
    { unfold piece, pnode. rewrite seen_elem, map_cons, concat_cons, Sp, !map_app, !concat_app, Sc. reflexivity. }
    unfold tree. cbn [seen map concat app lead]. rewrite E. reflexivity. }
  pose proof (doc_roundtrip _ _ Kt St) as Dt. unfold read_vtu. rewrite Dt.
  assert (Hall : all_small [tree]).
  { unfold all_small. cbn [map concat]. rewrite app_nil_r. eapply Forall_impl; [|apply text_length]. intros t Ht. cbv beta in Ht.
    assert (length t <= length (print_doc tree)) by (unfold print_doc; rewrite !app_length; lia).
    clear -Hsm H0. unfold small_text in *. destruct mode; auto. intros w Ew. specialize (Hsm w Ew). lia. }
  assert (Hs : all_small (pe :: ce ++ pd ++ cd)).
  { unfold all_small in *. unfold tree, piece in Hall. cbn [map concat texts app] in Hall. rewrite !app_nil_r in Hall. exact Hall. }
  apply all_small_cons in Hs. destruct Hs as [Hs1 Hs2]. apply all_small_app in Hs2. destruct Hs2 as [Hs2 Hs3]. apply all_small_app in Hs3. destruct Hs3 as [Hs3 Hs4].
  assert (Hs1' : all_small [pe]) by (apply all_small_cons; split; [exact Hs1|constructor]). specialize (Rp Hs1'). specialize (Rc Hs2).
  rewrite map_length in Rp.
  unfold read_root.
  assert (Eh : read_head native (XNode "VTKFile" attrs ([lf] ++ [lf]) [XNode "UnstructuredGrid" [] [lf] [pnode]]) = Ok head).
  { unfold read_head, attrs, header_attr, compressor_attr, file_head. cbn [xtag xattrs].
    destruct mode as [| |c]; [| |assert (Ec2 : smem c ["vtkLZMADataCompressor"; "vtkZLibDataCompressor"] = true) by (destruct Hcomp as [<-|[<-|[]]]; reflexivity)].
    all: destruct given; [|rewrite (Hgiven eq_refl)]; cbn; unfold smem in *; cbn in *; try rewrite Ec2; destruct big; reflexivity. }
  rewrite Eh. cbn [bind xchildren get_grid xtag String.eqb Ascii.eqb Bool.eqb fst snd].
  change (UHead (h_comp head) (h_type head) (h_big head) None) with head.
  cbn [forallb xtag pnode flat_map String.eqb Ascii.eqb Bool.eqb app filter]. unfold smem. cbn [existsb String.eqb Ascii.eqb Bool.eqb orb andb negb].
  unfold read_named at 1. cbn [foldM bind].
  assert (Epi : exists pds cds, read_piece nk pk head piece0 pnode = Ok (UPiece [VArr (vm_dtype m) [3] (map (uin_3d nk) (vm_points m))]
      [(flat_map Vtk51.enc (all_cells (vm_cells m)), ends 0 (all_cells (vm_cells m)), map code_of (all_cells (vm_cells m)))] pds cds) /\
      merge_point_data pds = Ok (vm_pdata m) /\ match cds with [] => [[]] | d :: l => d :: l end = [raws]).
  { unfold read_piece, pnode. cbn [xattrs xchildren dget String.eqb Ascii.eqb Bool.eqb of_option bind]. rewrite !int_attr_count. cbn [bind foldM xtag String.eqb Ascii.eqb Bool.eqb].
    rewrite Rp. cbn [bind foldM xtag String.eqb Ascii.eqb Bool.eqb up_points up_cells up_pdata up_craw piece0 app]. rewrite Rc. cbn [bind up_points up_cells up_pdata up_craw app].
    destruct (vm_pdata m) as [|x d] eqn:Ed.
    - rewrite (Npd eq_refl). cbn [map concat app]. destruct raws as [|y r] eqn:Er.
      + rewrite (Ncd eq_refl). cbn [map concat foldM]. exists [], []. auto.
      + destruct Rcd as (t & l & -> & Hr); [discriminate|]. destruct (Hr Hs4) as [_ R2].
        cbn [foldM xtag xchildren String.eqb Ascii.eqb Bool.eqb]. rewrite R2. cbn [bind foldM up_points up_cells up_pdata up_craw app]. exists [], [y :: r]. auto.
    - destruct Rpd as (t & l & -> & Hr); [discriminate|]. destruct (Hr Hs3) as [R1 _].
      assert (Em : merge_point_data [x :: d] = Ok (x :: d)) by (apply merge_one; rewrite <- Ed; exact (uk_pnames _ _ _ _ H)).
      cbn [app foldM xtag xchildren String.eqb Ascii.eqb Bool.eqb]. rewrite R1. cbn [bind up_points up_cells up_pdata up_craw app].
      destruct raws as [|y r] eqn:Er.
      + rewrite (Ncd eq_refl). cbn [map concat foldM]. exists [x :: d], []. auto.
      + destruct Rcd as (t' & l' & -> & Hr'); [discriminate|]. destruct (Hr' Hs4) as [_ R2].
        cbn [foldM xtag xchildren String.eqb Ascii.eqb Bool.eqb]. rewrite R2. cbn [bind foldM up_points up_cells up_pdata up_craw app]. exists [x :: d], [y :: r]. auto. }
  destruct Epi as (pds & cds & -> & Em & Ecds). cbn [bind up_points up_cells up_pdata up_craw length repeat]. rewrite Ecds. cbn [length Nat.eqb negb].
  unfold concat_arrays. cbn [forallb]. unfold tails_equal. destruct (list_eq_dec _ _ _) as [_|]; [|congruence]. cbn [andb bind flat_map va_rows va_dtype].
  rewrite app_nil_r, Em. cbn [bind map point_offsets]. unfold raws. rewrite (organize_ok _ _ H Hb Hnb). cbn [bind fst snd]. exact (ubuild_ok _ _ H Hb).
Qed.
End Numbers.
