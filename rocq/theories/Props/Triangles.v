(** C33 and C34: Neuroglancer and WKT. *)
From Verif.Lib Require Import Base Facts Text Lines LinesFacts Bytes File.
From Verif.Model Require Import Core Neuroglancer Wkt.
From Verif.Spec Require Import Core Surface.
From Verif.Proofs Require Import Gmsh Neuroglancer Wkt.
From Coq Require Import NArith ZifyBool ZifyNat.

(** ** C33 *)

(** [f4] stores a number in four bytes; [exact f4] holds of the numbers it stores without loss. *)
Theorem C33_roundtrip {F} (f4 : codec F) (pts : list (list F)) bs :
  codec_width f4 4 ->
  (N.of_nat (length pts) < 2 ^ 32)%N ->
  Forall (fun p => length p = 3 /\ Forall (exact f4) p) pts ->
  Forall (fun c => length c = 3 /\ Forall (fun i => 0 <= i < Z.of_nat (length pts))%Z c) (cells_of "triangle" bs) ->
  exists file, write_neuroglancer f4 pts bs = Ok file /\
    read_neuroglancer f4 file = Ok (pts, [Block "triangle" (cells_of "triangle" bs)]).
Proof. intros. now apply ng_roundtrip. Qed.
Print Assumptions C33_roundtrip.

Definition ex_ng : list (list Z) := [[0; 0; 0]; [1; 0; 0]; [0; 1; -7]; [1; 1; 0]]%Z.
Definition ex_ng_cells : list block :=
  [Block "triangle" [[0; 1; 2]]; Block "quad" [[0; 1; 3; 2]]; Block "triangle" [[3; 2; 1]]]%Z.
Example C33_instance :
  (do f <- write_neuroglancer (int_codec 4) ex_ng ex_ng_cells; read_neuroglancer (int_codec 4) f) =
    Ok (ex_ng, [Block "triangle" [[0; 1; 2]; [3; 2; 1]]%Z]) /\
  codec_width (int_codec 4) 4 /\ Forall (fun p => length p = 3 /\ Forall (exact (int_codec 4)) p) ex_ng /\
  Forall (fun c => length c = 3 /\ Forall (fun i => 0 <= i < 4)%Z c) (cells_of "triangle" ex_ng_cells).
Proof.
  split; [now vm_compute|]. split; [intros v; apply BytesFacts.sint_bytes_length|].
  split; repeat constructor; cbn; lia.
Qed.

(** Every accepted file holds exactly what its length and header say, and no index exceeds the
    number of points.  The claim is that the index is smaller than this number. *)
Theorem C33_accepted_partial {F} (f4 : codec F) b pts bs :
  read_neuroglancer f4 b = Ok (pts, bs) ->
  exists tri, bs = [Block "triangle" tri] /\
    Forall (fun p => length p = 3) pts /\ Forall (fun c => length c = 3) tri /\
    length b = 4 + 12 * length pts + 12 * length tri /\
    uint_value false (firstn 4 b) = N.of_nat (length pts) /\
    tri = chunks 3 (map (fun w => Z.of_N (uint_value false w)) (chunks 4 (skipn (4 + 12 * length pts) b))) /\
    Forall (Forall (fun i => 0 <= i <= Z.of_nat (length pts))%Z) tri.
Proof. apply ng_accepts. Qed.
Print Assumptions C33_accepted_partial.

(** Outcome of every file that is long enough for its header, in terms of its three parts: ReadError
    unless the rest is a multiple of twelve bytes and the indices are at most the number of points. *)
Theorem C33_outcome {F} (f4 : codec F) n vs ts :
  (n < 2 ^ 32)%N -> N.of_nat (length vs) = (12 * n)%N ->
  (exists r, read_neuroglancer f4 (uint_bytes false 4 n ++ vs ++ ts) = Ok r) <->
  length ts mod 12 = 0 /\ Forall (fun w => (uint_value false w <= n)%N) (chunks 4 ts).
Proof. apply ng_outcome. Qed.
Print Assumptions C33_outcome.
Theorem C33_truncated {F} (f4 : codec F) n vs : (n < 2 ^ 32)%N -> (N.of_nat (length vs) < 12 * n)%N ->
  read_neuroglancer f4 (uint_bytes false 4 n ++ vs) = Err ReadError.
Proof. apply ng_truncated. Qed.
Print Assumptions C33_truncated.
Theorem C33_refused {F} (f4 : codec F) n vs ts :
  (n < 2 ^ 32)%N -> N.of_nat (length vs) = (12 * n)%N ->
  length ts mod 12 <> 0 \/ Exists (fun w => (n < uint_value false w)%N) (chunks 4 ts) ->
  read_neuroglancer f4 (uint_bytes false 4 n ++ vs ++ ts) = Err ReadError.
Proof. apply ng_refused. Qed.
Print Assumptions C33_refused.

(** The full claim is false: an index equal to the number of points is accepted. *)
Theorem C33_nonexistent_refuted :
  ~ (forall b pts bs, read_neuroglancer (int_codec 4) b = Ok (pts, bs) ->
       Forall (fun bl => Forall (Forall (fun i => i < Z.of_nat (length pts))%Z) (bdata bl)) bs).
Proof.
  intros H. specialize (H (uint_bytes false 4 1 ++ repeat 0%N 12 ++ flat_map (uint_bytes false 4) [0; 1; 0]%N) [[0; 0; 0]%Z]
    [Block "triangle" [[0; 1; 0]%Z]]). specialize (H ltac:(now vm_compute)).
  inversion H as [|? ? H1 _]; subst. inversion H1 as [|? ? H2 _]; subst. inversion H2 as [|? ? _ H3]; subst.
  inversion H3 as [|? ? H4 _]; subst. cbn in H4. lia.
Qed.
Print Assumptions C33_nonexistent_refuted.

(** ** C34 *)

(** [peq] is the equality of coordinate tuples.  [tris] are the coordinates of the corners of
    the triangles of the mesh, in order. *)
Theorem C34_roundtrip_partial {fl : floats} (peq : list fl -> list fl -> bool) k (pts : list (list fl)) bs tris :
  floats_ok fl ->
  (forall p, peq p p = true) -> (forall p q, peq p q = peq q p) ->
  (forall p q r, peq p q = true -> peq q r = true -> peq p r = true) ->
  k = 3 \/ k = 4 ->
  Forall2 (fun c t => length c = 3 /\ corners pts c = Some t) (cells_of "triangle" bs) tris ->
  (* numbers are printed without exponent *)
  Forall (Forall (fun p => length p = k /\ Forall (fun x => plain_number (ffmt x)) p)) tris ->
  exists text, write_wkt pts bs = Ok text /\
    exists pts' rows, read_wkt peq text = Ok (pts', [Block "triangle" rows]) /\
      ForallOrdPairs (fun p q => peq p q = false) pts' /\ incl pts' (concat tris) /\
      Forall2 (fun c t => exists ps, corners pts' c = Some ps /\ Forall2 (fun p q => peq p q = true) ps t) rows tris.
Proof. intros. eapply wkt_roundtrip; eauto. Qed.
Print Assumptions C34_roundtrip_partial.

(** Every accepted text. *)
Theorem C34_accepted {fl : floats} (peq : list fl -> list fl -> bool) s pts bs :
  (forall p, peq p p = true) -> (forall p q, peq p q = peq q p) ->
  (forall p q r, peq p q = true -> peq q r = true -> peq p r = true) ->
  read_wkt peq s = Ok (pts, bs) ->
  exists rows k, bs = [Block "triangle" rows] /\ ForallOrdPairs (fun p q => peq p q = false) pts /\
    Forall (fun p => length p = k) pts /\
    Forall (fun c => length c = 3 /\ Forall (fun i => 0 <= i < Z.of_nat (length pts))%Z c) rows.
Proof. intros. now apply (wkt_accepts peq) with (s := s). Qed.
Print Assumptions C34_accepted.

Definition zeq (p q : list Z) : bool := if list_eq_dec Z.eq_dec p q then true else false.
Definition ex_wkt : list (list Z) := [[0; 0; 0]; [1; 0; 0]; [0; 1; -7]; [1; 0; 0]; [12; 1; 0]]%Z.
Example C34_instance :
  @write_wkt int_floats ex_wkt [Block "triangle" [[2; 0; 1]]; Block "line" [[0; 1]]; Block "triangle" [[4; 3; 0]]]%Z =
    Ok "TIN (((0 1 -7, 0 0 0, 1 0 0, 0 1 -7)), ((12 1 0, 1 0 0, 0 0 0, 12 1 0)))" /\
  @read_wkt int_floats zeq "TIN (((0 1 -7, 0 0 0, 1 0 0, 0 1 -7)), ((12 1 0, 1 0 0, 0 0 0, 12 1 0)))" =
    Ok ([[0; 1; -7]; [0; 0; 0]; [1; 0; 0]; [12; 1; 0]]%Z, [Block "triangle" [[0; 1; 2]; [3; 2; 1]]%Z]) /\
  (forall p, zeq p p = true) /\ (forall p q, zeq p q = zeq q p) /\
  (forall p q r, zeq p q = true -> zeq q r = true -> zeq p r = true) /\
  Forall (Forall (fun x => plain_number (str_of_Z x))) ex_wkt.
Proof.
  split; [now vm_compute|]. split; [now vm_compute|].
  split; [intros; unfold zeq; destruct list_eq_dec; congruence|].
  split; [intros; unfold zeq; repeat destruct list_eq_dec; congruence|].
  split; [intros p q r; unfold zeq; repeat destruct list_eq_dec; congruence|].
  apply Forall_forall. intros p _. apply Forall_forall. intros x _. apply plain_str_of_Z.
Qed.

(** Numbers with an exponent, which [str] produces below 1e-4 and from 1e16 on, cannot be read:
    the claim fails without the hypothesis on printing. *)
Definition exp_floats : floats :=
  Floats Z (fun z => (str_of_Z z ++ "e0")%string)
    (fun s => match split_char "e" s with [a; "0"] => parse_Z a | _ => None end) 0%Z.
Lemma exp_floats_ok : floats_ok exp_floats.
Proof.
  intros v. cbn [ffmt exp_floats fparse]. pose proof (TextFacts.word_str_of_Z v) as W. apply TextFacts.word_no_space in W.
  destruct W as [W1 W2]. split.
  - assert (G : forall t, no_space t = true -> no_space (t ++ "e0") = true).
    { induction t as [|a t IH]; cbn; auto. intros H. apply andb_true_iff in H. now rewrite (proj1 H), IH. }
    destruct (str_of_Z v) as [|c s] eqn:E; [congruence|]. exact (G _ W1).
  - rewrite TextFacts.split_char_app.
    + apply TextFacts.parse_Z_str_of_Z.
    + apply Gmsh.char_in_str_of_Z; [reflexivity|discriminate].
Qed.
Theorem C34_exponent_refuted :
  exists (fl : floats) (peq : list fl -> list fl -> bool) (pts : list (list fl)) text, floats_ok fl /\
    write_wkt pts [Block "triangle" [[0; 1; 2]%Z]] = Ok text /\ length pts = 3 /\ Forall (fun p => length p = 3) pts /\
    read_wkt peq text = Err ReadError.
Proof.
  exists exp_floats, zeq, [[0; 0; 0]; [1; 0; 0]; [0; 1; 0]]%Z. eexists. split; [apply exp_floats_ok|]. split; [reflexivity|].
  split; [reflexivity|]. split; [repeat constructor|]. now vm_compute.
Qed.
Print Assumptions C34_exponent_refuted.
