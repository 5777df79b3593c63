From Coq Require Import Lia ZArith Permutation.
From Verif.Lib Require Import Base Facts Facts2 Text TextFacts Lines LinesFacts.
From Verif.Model Require Import Core Tables Info Dolfin.
From Verif.Spec Require Import Core Dolfin.
From Verif.Proofs Require Import Info Xdmf AbaqusFile Gmsh Ugrid.
Import Model.Dolfin.
Local Arguments str_of_nat : simpl never.
Local Arguments str_of_Z : simpl never.
Local Arguments String.eqb : simpl never.

(** ** Arrays that are filled *)
Definition fills {A} (ivs : list (nat * A)) (l : list (option A)) : list (option A) := fold_left (fun l iv => upd (fst iv) (Some (snd iv)) l) ivs l.
Lemma fills_length {A} (ivs : list (nat * A)) l : length (fills ivs l) = length l.
Proof. unfold fills. revert l. induction ivs as [|iv ivs IH]; intros l; [reflexivity|]. cbn [fold_left]. now rewrite IH, upd_length. Qed.
Lemma upd_comm {A} i j (a b : A) l : i <> j -> upd i a (upd j b l) = upd j b (upd i a l).
Proof.
  revert i j. induction l as [|x l IH]; intros [|i] [|j] H; cbn [upd]; try congruence. f_equal. apply IH. congruence.
Qed.
Lemma fills_perm {A} (a b : list (nat * A)) : Permutation a b -> NoDup (map fst a) -> forall l, fills a l = fills b l.
Proof.
  unfold fills. induction 1 as [|x a b H IH|x y a|a b c H1 IH1 H2 IH2]; intros Hn l; cbn [fold_left].
  - reflexivity.
  - apply IH. now inversion Hn.
  - f_equal. apply upd_comm. cbn in Hn. inversion Hn as [|? ? Hx Hn']; subst. intros E. apply Hx. left. now symmetry.
  - rewrite IH1 by exact Hn. apply IH2. eapply Permutation_NoDup; [apply Permutation_map, H1|exact Hn].
Qed.
Lemma upd_here {A} (a : list A) v x b : upd (length a) v (a ++ x :: b) = a ++ v :: b.
Proof. induction a as [|y a IH]; [reflexivity|]. cbn [length app upd]. now rewrite IH. Qed.
Lemma fills_enumerate {A} (l : list A) : fills (enumerate l) (repeat None (length l)) = map Some l.
Proof.
  assert (G : forall k done, length done = k -> fills (combine (seq k (length l)) l) (done ++ repeat None (length l)) = done ++ map Some l).
  { induction l as [|x l IH]; intros k done Hk; [reflexivity|]. cbn [length seq combine repeat map]. unfold fills. cbn [fold_left fst snd]. rewrite <- Hk at 2. rewrite upd_here.
    replace (done ++ Some x :: repeat None (length l)) with ((done ++ [Some x]) ++ repeat None (length l)) by (now rewrite <- app_assoc).
    specialize (IH (S k) (done ++ [Some x])). unfold fills in IH. rewrite IH by (rewrite app_length; cbn; lia). now rewrite <- app_assoc. }
  apply (G 0 []). reflexivity.
Qed.
Lemma enumerate_lt {A} (l : list A) : Forall (fun iv => fst iv < length l) (enumerate l).
Proof. apply Forall_forall. intros [i x] H. apply in_combine_l in H. apply in_seq in H. cbn [fst]. lia. Qed.
Lemma enumerate_nodup {A} (l : list A) : NoDup (map fst (enumerate l)).
Proof. unfold enumerate. rewrite map_fst_combine by (now rewrite seq_length). apply seq_NoDup. Qed.
Lemma set_ok {A} k (v : A) l : k < length l -> set_item (Z.of_nat k) v l = Ok (upd k (Some v) l).
Proof. intros H. unfold set_item. rewrite np_index_ok by lia. cbn [bind]. unfold pos_of. replace (Z.of_nat k <? 0)%Z with false by (symmetry; apply Z.ltb_ge; lia). now rewrite Nat2Z.id. Qed.
Lemma foldR_app {A B} (f : A -> B -> result A) l1 l2 a : foldR f (l1 ++ l2) a = do x <- foldR f l1 a; foldR f l2 x.
Proof. revert a. induction l1 as [|x l1 IH]; intros a; [reflexivity|]. cbn [app foldR]. destruct (f a x); [apply IH|reflexivity]. Qed.
Lemma parse_nat n : parse_Z (str_of_nat n) = Some (Z.of_nat n).
Proof. rewrite str_of_nat_Z. apply parse_Z_str_of_Z. Qed.
Lemma index_attr k n a : int_attr k ((k, str_of_nat n) :: a) = Ok (Z.of_nat n).
Proof. unfold int_attr. cbn [dget]. rewrite String.eqb_refl. cbn [of_option bind]. now rewrite parse_nat. Qed.

Section Read.
Context {fl : floats} (Hfl : floats_ok fl).
Notation st := (dolfin_state (fl := fl)).

(** ** The mesh *)
Lemma vertex_ok (d : nat) (p : list (option (list fl))) ty cs (iv : nat * list fl) : (d = 2 \/ d = 3) -> fst iv < length p -> length (snd iv) = d ->
  dolfin_elem (DolfinState (Some (Z.of_nat d)) (Some p) ty cs) (xtag (vertex iv), xattrs (vertex iv)) =
  Ok (DolfinState (Some (Z.of_nat d)) (Some (upd (fst iv) (Some (snd iv)) p)) ty cs).
Proof.
  intros Hd Hi Hl. destruct iv as [i r]. cbn [fst snd] in *. unfold vertex, dolfin_elem. cbn [xtag xattrs fst snd].
  change (String.eqb "vertex" "dolfin") with false. change (String.eqb "vertex" "mesh") with false. change (String.eqb "vertex" "vertices") with false. change (String.eqb "vertex" "vertex") with true. cbv iota.
  rewrite index_attr. cbn [bind].
  assert (E : mapM (fun key => of_option KeyError (dget key (("index", str_of_nat i) :: combine ["x"; "y"; "z"] (map ffmt r)))) (if (Z.of_nat d =? 3)%Z then ["x"; "y"; "z"] else ["x"; "y"]) = Ok (map ffmt r)).
  { destruct Hd as [-> | ->]; [destruct r as [|a [|b [|]]]|destruct r as [|a [|b [|c [|]]]]]; try discriminate; reflexivity. }
  rewrite E. cbn [bind]. assert (F : ((Z.of_nat d =? 2)%Z || (Z.of_nat d =? 3)%Z) = true) by (destruct Hd as [-> | ->]; reflexivity). rewrite F.
  rewrite parse_floats_ok by exact Hfl. cbn [bind]. rewrite set_ok by exact Hi. reflexivity.
Qed.
Lemma vertices_ok (d : nat) ty cs (ivs : list (nat * list fl)) : (d = 2 \/ d = 3) -> forall p, Forall (fun iv => fst iv < length p /\ length (snd iv) = d) ivs ->
  foldR dolfin_elem (concat (map starts (map vertex ivs))) (DolfinState (Some (Z.of_nat d)) (Some p) ty cs) = Ok (DolfinState (Some (Z.of_nat d)) (Some (fills ivs p)) ty cs).
Proof.
  intros Hd. induction ivs as [|iv ivs IH]; intros p H; [reflexivity|]. apply Forall_cons_iff in H. destruct H as [(H1 & H2) H3].
  cbn [map concat]. change (starts (vertex iv)) with [(xtag (vertex iv), xattrs (vertex iv))]. cbn [app foldR]. rewrite vertex_ok by auto. cbn [bind].
  unfold fills. cbn [fold_left]. rewrite IH; [reflexivity|]. eapply Forall_impl; [|exact H3]. intros iv' (A & B). now rewrite upd_length.
Qed.
Definition dolfin_name (t ct : string) (w : nat) : Prop := (t = "triangle" /\ ct = "triangle" /\ w = 3) \/ (t = "tetra" /\ ct = "tetrahedron" /\ w = 4).
Lemma nodes_ok i (r : cell) w : (w = 3 \/ w = 4) -> length r = w ->
  mapM (fun k => int_attr ("v" ++ str_of_nat k) (("index", str_of_nat i) :: map (fun kc => (("v" ++ str_of_nat (fst kc))%string, str_of_Z (snd kc))) (enumerate r))) (seq 0 w) = Ok r.
Proof.
  assert (P : forall z, (do s <- of_option KeyError (Some (str_of_Z z)); of_option ValueError (parse_Z s)) = Ok z) by (intros z; cbn [of_option bind]; now rewrite parse_Z_str_of_Z).
  intros [-> | ->] L; [destruct r as [|a [|b [|c [|]]]]|destruct r as [|a [|b [|c [|d [|]]]]]]; try discriminate; cbn [seq mapM];
    unfold int_attr; cbn [enumerate combine seq length map fst snd].
  - change (dget ("v" ++ str_of_nat 0) _) with (Some (str_of_Z a)) at 1. rewrite P. cbn [bind]. change (dget ("v" ++ str_of_nat 1) _) with (Some (str_of_Z b)) at 1. rewrite P. cbn [bind].
    change (dget ("v" ++ str_of_nat 2) _) with (Some (str_of_Z c)) at 1. rewrite P. reflexivity.
  - change (dget ("v" ++ str_of_nat 0) _) with (Some (str_of_Z a)) at 1. rewrite P. cbn [bind]. change (dget ("v" ++ str_of_nat 1) _) with (Some (str_of_Z b)) at 1. rewrite P. cbn [bind].
    change (dget ("v" ++ str_of_nat 2) _) with (Some (str_of_Z c)) at 1. rewrite P. cbn [bind]. change (dget ("v" ++ str_of_nat 3) _) with (Some (str_of_Z d)) at 1. rewrite P. reflexivity.
Qed.
Lemma cell_ok dim pts t ct w (c : list (option cell)) (iv : nat * cell) : dolfin_name t ct w -> fst iv < length c -> length (snd iv) = w ->
  dolfin_elem (DolfinState dim pts (Some (t, w)) (Some c)) (xtag (cell_elem ct iv), xattrs (cell_elem ct iv)) = Ok (DolfinState (fl := fl) dim pts (Some (t, w)) (Some (upd (fst iv) (Some (snd iv)) c))).
Proof.
  intros Ht Hi Hl. destruct iv as [i r]. cbn [fst snd] in *. assert (Hw : w = 3 \/ w = 4) by (destruct Ht as [(_ & _ & ->)|(_ & _ & ->)]; auto).
  unfold cell_elem. cbn [xtag xattrs fst snd]. pose proof (nodes_ok i r w Hw Hl) as N. set (a := _ :: _) in *. unfold dolfin_elem.
  assert (X : int_attr "index" a = Ok (Z.of_nat i)) by (unfold a; apply index_attr).
  destruct Ht as [(-> & -> & Ew)|(-> & -> & Ew)].
  - change (String.eqb "triangle" "dolfin") with false. change (String.eqb "triangle" "mesh") with false. change (String.eqb "triangle" "vertices") with false. change (String.eqb "triangle" "vertex") with false.
    change (String.eqb "triangle" "cells") with false. change (smem "triangle" ["triangle"; "tetrahedron"]) with true. cbv iota. rewrite X. cbn [bind snd]. rewrite N. cbn [bind]. rewrite set_ok by exact Hi. reflexivity.
  - change (String.eqb "tetrahedron" "dolfin") with false. change (String.eqb "tetrahedron" "mesh") with false. change (String.eqb "tetrahedron" "vertices") with false. change (String.eqb "tetrahedron" "vertex") with false.
    change (String.eqb "tetrahedron" "cells") with false. change (smem "tetrahedron" ["triangle"; "tetrahedron"]) with true. cbv iota. rewrite X. cbn [bind snd]. rewrite N. cbn [bind]. rewrite set_ok by exact Hi. reflexivity.
Qed.
Lemma cells_ok dim pts t ct w (ivs : list (nat * cell)) : dolfin_name t ct w -> forall c, Forall (fun iv => fst iv < length c /\ length (snd iv) = w) ivs ->
  foldR dolfin_elem (concat (map starts (map (cell_elem ct) ivs))) (DolfinState (fl := fl) dim pts (Some (t, w)) (Some c)) = Ok (DolfinState dim pts (Some (t, w)) (Some (fills ivs c))).
Proof.
  intros Hd. induction ivs as [|iv ivs IH]; intros p H; [reflexivity|]. apply Forall_cons_iff in H. destruct H as [(H1 & H2) H3].
  cbn [map concat]. change (starts (cell_elem ct iv)) with [(xtag (cell_elem ct iv), xattrs (cell_elem ct iv))]. cbn [app foldR]. rewrite cell_ok by auto. cbn [bind].
  unfold fills. cbn [fold_left]. rewrite IH; [reflexivity|]. eapply Forall_impl; [|exact H3]. intros iv' (A & B). now rewrite upd_length.
Qed.
Lemma size_ok {A} n : (do k <- int_attr "size" [("size", str_of_nat n)]; empty_array k) = Ok (repeat (@None A) n).
Proof. rewrite index_attr. cbn [bind]. unfold empty_array. replace (Z.of_nat n <? 0)%Z with false by (symmetry; apply Z.ltb_ge; lia). now rewrite Nat2Z.id. Qed.
(** A document with the vertices and the cells in any order *)
Definition dolfin_doc (ns : dict string) (d : nat) (ct : string) (n : nat) (vs : list (nat * list fl)) (k : nat) (cs : list (nat * cell)) : xml :=
  Elem "dolfin" ns [Elem "mesh" [("celltype", ct); ("dim", str_of_nat d)]
    [Elem "vertices" [("size", str_of_nat n)] (map vertex vs); Elem "cells" [("size", str_of_nat k)] (map (cell_elem ct) cs)]].
Ltac step E := match type of E with _ = ?r => match goal with |- bind ?x ?f = _ => replace x with r by (symmetry; exact E) end end; cbn [bind].
Lemma doc_ok ns d t ct w pts cells vs cs : (d = 2 \/ d = 3) -> dolfin_name t ct w -> Forall (fun p : list fl => length p = d) pts -> Forall (fun c => length c = w) cells ->
  Permutation vs (enumerate pts) -> Permutation cs (enumerate cells) ->
  read_dolfin_mesh (dolfin_doc ns d ct (length pts) vs (length cells) cs) = Ok (DolfinState (Some (Z.of_nat d)) (Some (map Some pts)) (Some (t, w)) (Some (map Some cells))).
Proof.
  intros Hd Ht Hp Hc Pv Pc. unfold read_dolfin_mesh, dolfin_doc. cbn [starts map concat app]. rewrite app_nil_r. cbn [foldR].
  assert (Hty : dget ct dolfin_to_meshio_type = Some (t, w)) by (destruct Ht as [(-> & -> & ->)|(-> & -> & ->)]; reflexivity).
  change (dolfin_elem (DolfinState None None None None) ("dolfin", ns)) with (Ok (DolfinState (fl := fl) None None None None)). cbn [bind foldR].
  assert (Em : dolfin_elem (DolfinState None None None None) ("mesh", [("celltype", ct); ("dim", str_of_nat d)]) = Ok (DolfinState (fl := fl) (Some (Z.of_nat d)) None (Some (t, w)) None)).
  { unfold dolfin_elem. change (String.eqb "mesh" "dolfin") with false. change (String.eqb "mesh" "mesh") with true. cbv iota. change (int_attr "dim" [("celltype", ct); ("dim", str_of_nat d)]) with (int_attr "dim" [("dim", str_of_nat d)]).
    rewrite index_attr. cbn [bind]. change (dget "celltype" [("celltype", ct); ("dim", str_of_nat d)]) with (Some ct). cbn [of_option bind]. rewrite Hty. reflexivity. }
  step Em.
  assert (Ev : dolfin_elem (DolfinState (Some (Z.of_nat d)) None (Some (t, w)) None) ("vertices", [("size", str_of_nat (length pts))]) =
               Ok (DolfinState (fl := fl) (Some (Z.of_nat d)) (Some (repeat None (length pts))) (Some (t, w)) None)).
  { unfold dolfin_elem. change (String.eqb "vertices" "dolfin") with false. change (String.eqb "vertices" "mesh") with false. change (String.eqb "vertices" "vertices") with true. cbv iota.
    pose proof (size_ok (A := list fl) (length pts)) as S. rewrite index_attr in *. cbn [bind] in *. rewrite S. reflexivity. }
  step Ev. rewrite foldR_app. cbn [foldR].
  rewrite vertices_ok; [|exact Hd|].
  2: { rewrite repeat_length. eapply Permutation_Forall; [apply Permutation_sym, Pv|]. apply Forall_forall. intros [i x] H. split; [exact (proj1 (Forall_forall _ _) (enumerate_lt pts) _ H)|].
       apply in_combine_r in H. exact (proj1 (Forall_forall _ _) Hp x H). }
  cbn [bind foldR]. rewrite (fills_perm _ _ Pv) by (eapply Permutation_NoDup; [apply Permutation_map, Permutation_sym, Pv|apply enumerate_nodup]). rewrite fills_enumerate.
  assert (Ec : dolfin_elem (DolfinState (Some (Z.of_nat d)) (Some (map Some pts)) (Some (t, w)) None) ("cells", [("size", str_of_nat (length cells))]) =
               Ok (DolfinState (fl := fl) (Some (Z.of_nat d)) (Some (map Some pts)) (Some (t, w)) (Some (repeat None (length cells))))).
  { unfold dolfin_elem. change (String.eqb "cells" "dolfin") with false. change (String.eqb "cells" "mesh") with false. change (String.eqb "cells" "vertices") with false. change (String.eqb "cells" "vertex") with false.
    change (String.eqb "cells" "cells") with true. cbv iota. pose proof (size_ok (A := cell) (length cells)) as S. rewrite index_attr in *. cbn [bind] in *. rewrite S. reflexivity. }
  step Ec. rewrite app_nil_r. rewrite (cells_ok _ _ t ct w); [|exact Ht|].
  2: { rewrite repeat_length. eapply Permutation_Forall; [apply Permutation_sym, Pc|]. apply Forall_forall. intros [i x] H. split; [exact (proj1 (Forall_forall _ _) (enumerate_lt cells) _ H)|].
       apply in_combine_r in H. exact (proj1 (Forall_forall _ _) Hc x H). }
  rewrite (fills_perm _ _ Pc) by (eapply Permutation_NoDup; [apply Permutation_map, Permutation_sym, Pc|apply enumerate_nodup]). rewrite fills_enumerate. reflexivity.
Qed.
(** ** Data *)
Definition values_of (d : dolfin_data fl) : list string := match d with DInt l | DUint l => map str_of_Z l | DFloat l => map ffmt l | DOther _ => [] end.
Definition kind_of (d : dolfin_data fl) : string := match d with DInt _ => "int" | DUint _ => "uint" | _ => "float" end.
(** A document with the entities in any order *)
Definition data_doc (ns : dict string) (dim : nat) (ty : string) (n : nat) (es : list (nat * string)) : xml :=
  Elem "dolfin" ns [Elem "mesh_function" [("type", ty); ("dim", str_of_nat dim); ("size", str_of_nat n)] (map entity es)].
Lemma fill_ok {A} (parse : string -> result A) (es : list (nat * string)) (vs : list (nat * A)) :
  Forall2 (fun e v => fst e = fst v /\ parse (snd e) = Ok (snd v)) es vs -> forall l, Forall (fun v => fst v < length l) vs -> fill parse (map entity es) l = Ok (fills vs l).
Proof.
  induction 1 as [|e v es vs (E1 & E2) _ IH]; intros l H; [reflexivity|]. apply Forall_cons_iff in H. destruct H as [H1 H2]. cbn [map fill entity xtag xattrs].
  change (String.eqb "entity" "entity") with true. cbn [negb]. rewrite index_attr. cbn [bind]. change (dget "value" [("index", str_of_nat (fst e)); ("value", snd e)]) with (Some (snd e)). cbn [of_option bind].
  rewrite E2. cbn [bind]. rewrite E1. rewrite set_ok by exact H1. cbn [bind]. unfold fills. cbn [fold_left]. apply IH. eapply Forall_impl; [|exact H2]. intros x Hx. now rewrite upd_length.
Qed.
Lemma fill_perm {A} (parse : string -> result A) (f : A -> string) (l : list A) es : Forall (fun x => parse (f x) = Ok x) l -> Permutation es (enumerate (map f l)) ->
  fill parse (map entity es) (repeat None (length l)) = Ok (map Some l).
Proof.
  intros Hf P. assert (X : enumerate (map f l) = map (fun iv => (fst iv, f (snd iv))) (enumerate l)).
  { unfold enumerate. rewrite map_length. generalize 0. clear. induction l as [|x l IH]; intros k; [reflexivity|]. cbn [length seq map combine fst snd]. now rewrite <- IH. }
  rewrite X in P. apply Permutation_map_inv in P. destruct P as (vs & -> & P). rewrite (fill_ok parse _ vs).
  - rewrite (fills_perm vs (enumerate l)); [now rewrite fills_enumerate|now apply Permutation_sym|]. eapply Permutation_NoDup; [apply Permutation_map; exact P|apply enumerate_nodup].
  - assert (Hv : Forall (fun iv => parse (f (snd iv)) = Ok (snd iv)) vs).
    { eapply Permutation_Forall; [exact P|]. apply Forall_forall. intros [i x] Hin. apply in_combine_r in Hin. cbn [snd]. exact (proj1 (Forall_forall _ _) Hf x Hin). }
    clear - Hv. induction Hv; constructor; auto.
  - rewrite repeat_length. eapply Permutation_Forall; [exact P|]. apply enumerate_lt.
Qed.
Lemma data_doc_ok ns dim (d : dolfin_data fl) es : data_ok d -> Permutation es (enumerate (values_of d)) -> read_dolfin_data (data_doc ns dim (kind_of d) (data_length d) es) = Ok (all_set d).
Proof.
  intros Hd P. unfold read_dolfin_data, data_doc. cbn [xchildren xtag xattrs]. change (String.eqb "mesh_function" "mesh_function") with true. cbn [negb].
  change (int_attr "size" [("type", kind_of d); ("dim", str_of_nat dim); ("size", str_of_nat (data_length d))]) with (int_attr "size" [("size", str_of_nat (data_length d))]).
  change (dget "type" [("type", kind_of d); ("dim", str_of_nat dim); ("size", str_of_nat (data_length d))]) with (Some (kind_of d)).
  rewrite index_attr. cbn [bind of_option]. assert (E : forall A n, empty_array (A := A) (Z.of_nat n) = Ok (repeat None n)).
  { intros A n. unfold empty_array. replace (Z.of_nat n <? 0)%Z with false by (symmetry; apply Z.ltb_ge; lia). now rewrite Nat2Z.id. }
  destruct d as [l|l|l|n]; cbn [kind_of data_length values_of data_ok all_set] in *; [| | |destruct Hd].
  - change (String.eqb "int" "int") with true. cbv iota. rewrite E. cbn [bind]. rewrite (fill_perm _ str_of_Z l es); [reflexivity| |exact P]. apply Forall_forall. intros z _. now rewrite parse_Z_str_of_Z.
  - change (String.eqb "uint" "int") with false. change (String.eqb "uint" "uint") with true. cbv iota. rewrite E. cbn [bind]. rewrite (fill_perm _ str_of_Z l es); [reflexivity| |exact P].
    eapply Forall_impl; [|exact Hd]. intros z Hz. cbv beta in *. unfold parse_uint. rewrite parse_Z_str_of_Z. cbn [of_option bind]. destruct (Z.ltb_spec z 0); [lia|reflexivity].
  - change (String.eqb "float" "int") with false. change (String.eqb "float" "uint") with false. change (String.eqb "float" "float") with true. cbv iota. rewrite E. cbn [bind].
    rewrite (fill_perm _ ffmt l es); [reflexivity| |exact P]. apply Forall_forall. intros z _. destruct (Hfl z) as [_ ->]. reflexivity.
Qed.
Lemma write_data_ok dim d : data_ok d -> write_dolfin_data dim d = Ok (data_doc [] dim (kind_of d) (data_length d) (enumerate (values_of d))).
Proof. intros Hd. unfold write_dolfin_data, data_doc. destruct d; [| | |destruct Hd]; cbn [data_type_values bind fst snd kind_of values_of data_length]; rewrite map_length; reflexivity. Qed.

(** ** Files *)
Lemma drop_prefix_app p s : drop_prefix p (p ++ s) = Some s.
Proof. induction p as [|a p IH]; [reflexivity|]. cbn [append drop_prefix]. now rewrite Ascii.eqb_refl. Qed.
Lemma drop_prefix_none p s : String.prefix p s = false -> drop_prefix p s = None.
Proof.
  revert s. induction p as [|a p IH]; intros s H; [destruct s; discriminate|]. destruct s as [|b s]; [reflexivity|]. cbn [String.prefix drop_prefix] in *.
  destruct (Ascii.ascii_dec a b) as [->|Hn]; [rewrite Ascii.eqb_refl; now apply IH|]. destruct (Ascii.eqb_spec a b); [contradiction|reflexivity].
Qed.
Lemma until_dot_app n : char_in "." n = false -> until_dot (n ++ ".xml") = (n, ".xml"%string).
Proof.
  induction n as [|a n IH]; [reflexivity|]. cbn [char_in append until_dot]. intros H. apply orb_false_iff in H. destruct H as [H1 H2]. rewrite Ascii.eqb_sym in H1. rewrite H1, IH by exact H2. reflexivity.
Qed.
Lemma data_name_file stem n : n <> ""%string -> char_in "." n = false -> data_name stem (data_file stem n) = Some n.
Proof.
  intros H1 H2. unfold data_name, data_file. rewrite <- str_app_assoc, drop_prefix_app, until_dot_app by exact H2. apply String.eqb_neq in H1. rewrite H1. reflexivity.
Qed.
Lemma data_name_mesh stem : data_name stem (stem ++ ".xml") = None.
Proof.
  unfold data_name. assert (E : drop_prefix (stem ++ "_") (stem ++ ".xml") = None) by (induction stem as [|a s IH]; [reflexivity|]; cbn [append drop_prefix]; now rewrite Ascii.eqb_refl). now rewrite E.
Qed.
Lemma data_name_other stem f : String.prefix (stem ++ "_") f = false -> data_name stem f = None.
Proof. intros H. unfold data_name. now rewrite drop_prefix_none. Qed.
Lemma dset_dset {V} k (a b : V) d : dset k b (dset k a d) = dset k b d.
Proof.
  induction d as [|[k' v] d IH]; cbn [dset]; [now rewrite String.eqb_refl|]. destruct (String.eqb_spec k k') as [->|Hn]; cbn [dset]; [now rewrite String.eqb_refl|].
  destruct (String.eqb_spec k k'); [contradiction|]. now rewrite IH.
Qed.
Definition doc_of (dim : nat) (d : dolfin_data fl) : xml := data_doc [] dim (kind_of d) (data_length d) (enumerate (values_of d)).
Lemma blocks_ok dim file ds d fs : Forall data_ok (ds ++ [d]) -> write_dolfin_blocks dim file (ds ++ [d]) fs = Ok (dset file (doc_of dim d) fs).
Proof.
  revert fs. induction ds as [|e ds IH]; intros fs H; cbn [app] in *; apply Forall_cons_iff in H; destruct H as [H1 H2]; cbn [write_dolfin_blocks]; rewrite write_data_ok by exact H1; cbn [bind].
  - reflexivity.
  - rewrite IH by exact H2. now rewrite dset_dset.
Qed.
(** The last array of every name *)
Definition lasts (cd : dict (list (dolfin_data fl))) (l : dict (dolfin_data fl)) : Prop := Forall2 (fun nd e => fst nd = fst e /\ exists ds, snd nd = ds ++ [snd e]) cd l.
Lemma names_ok dim stem cd l fs : lasts cd l -> Forall (fun nd => Forall data_ok (snd nd)) cd ->
  write_dolfin_names dim stem cd fs = Ok (fold_left (fun fs e => dset (fst e) (snd e) fs) (map (fun e => (data_file stem (fst e), doc_of dim (snd e))) l) fs).
Proof.
  intros H. revert fs. induction H as [|[n ds] [n' d] cd l (E & ds' & E') _ IH]; intros fs Hd; [reflexivity|]. cbn [fst snd] in *. subst n' ds. apply Forall_cons_iff in Hd. destruct Hd as [Hd1 Hd2]. cbn [snd] in Hd1.
  cbn [write_dolfin_names]. rewrite blocks_ok by exact Hd1. cbn [bind map fold_left fst snd]. apply IH, Hd2.
Qed.
Lemma files_filter stem listing (fs : dict xml) : forall cd : dict (list (filled fl)),
  read_dolfin_files stem listing fs cd = read_dolfin_files stem (filter (fun f => match data_name stem f with Some _ => true | None => false end) listing) fs cd.
Proof.
  induction listing as [|f l IH]; intros cd; [reflexivity|]. cbn [read_dolfin_files filter]. destruct (data_name stem f) as [n|] eqn:E; [|apply IH]. cbn [read_dolfin_files]. rewrite E.
  destruct (dget f fs) as [x|]; [|reflexivity]. cbn [of_option bind]. destruct (read_dolfin_data x); [apply IH|reflexivity].
Qed.
Lemma filter_perm {A} (p : A -> bool) a b : Permutation a b -> Permutation (filter p a) (filter p b).
Proof.
  induction 1 as [|x a b H IH|x y a|a b c H1 IH1 H2 IH2]; cbn [filter]; auto.
  - destruct (p x); auto.
  - destruct (p x), (p y); auto. apply perm_swap.
  - eapply perm_trans; eauto.
Qed.
Definition good_name (n : string) : Prop := n <> ""%string /\ char_in "." n = false.
Lemma data_files_read dim stem (fs : dict xml) (sub : dict (dolfin_data fl)) : Forall (fun e => good_name (fst e) /\ data_ok (snd e) /\ dget (data_file stem (fst e)) fs = Some (doc_of dim (snd e))) sub ->
  NoDup (map fst sub) -> forall cd, (forall n, In n (map fst sub) -> ~ In n (dkeys cd)) ->
  read_dolfin_files stem (map (fun e => data_file stem (fst e)) sub) fs cd = Ok (cd ++ map (fun e => (fst e, [all_set (snd e)])) sub).
Proof.
  induction 1 as [|[n d] sub ((G1 & G2) & Hd & Hg) _ IH]; intros Hn cd Hc; cbn [map]; [now rewrite app_nil_r|]. cbn [fst snd] in *. cbn [read_dolfin_files]. rewrite data_name_file by auto. rewrite Hg. cbn [of_option bind].
  unfold doc_of. rewrite data_doc_ok by (auto; apply Permutation_refl). cbn [bind]. cbn [map fst] in Hn, Hc. inversion Hn as [|? ? Hx Hn']; subst.
  assert (Hnew : ~ In n (dkeys cd)) by (apply Hc; now left).
  assert (E : dget n cd = None) by (apply dget_None; exact Hnew). rewrite E. cbn [app]. rewrite dset_new by exact Hnew. rewrite IH; [now rewrite <- app_assoc|exact Hn'|].
  intros k Hk. rewrite dkeys_app, in_app_iff. intros [Hin|Hin]; [apply (Hc k); [now right|exact Hin]|]. cbn in Hin. destruct Hin as [<-|[]]. now apply Hx.
Qed.
Lemma dget_app_new {V} k (a b : dict V) : ~ In k (dkeys a) -> dget k (a ++ b) = dget k b.
Proof.
  induction a as [|[k' v] a IH]; intros H; [reflexivity|]. cbn [app dget]. cbn [dkeys map fst] in H. destruct (String.eqb_spec k k') as [->|Hn]; [exfalso; apply H; now left|]. apply IH. intros Hin. apply H. now right.
Qed.
Lemma dget_app_old {V} k (v : V) (a b : dict V) : dget k a = Some v -> dget k (a ++ b) = Some v.
Proof. induction a as [|[k' v'] a IH]; [discriminate|]. cbn [app dget]. destruct (String.eqb k k'); auto. Qed.
Lemma data_file_inj stem a b : data_file stem a = data_file stem b -> a = b.
Proof.
  unfold data_file. intros E. apply append_cancel_l in E. assert (E2 : (a ++ ".xml" = b ++ ".xml")%string) by (cbn [append] in E; congruence). now apply append_cancel_r in E2.
Qed.
Lemma filter_all {A} (p : A -> bool) l : Forall (fun x => p x = true) l -> filter p l = l.
Proof. induction 1 as [|x l H _ IH]; [reflexivity|]. cbn [filter]. now rewrite H, IH. Qed.
Lemma filter_none {A} (p : A -> bool) l : Forall (fun x => p x = false) l -> filter p l = [].
Proof. induction 1 as [|x l H _ IH]; [reflexivity|]. cbn [filter]. now rewrite H, IH. Qed.
Lemma dkeys_dset_in {V} k (v : V) d x : In x (dkeys (dset k v d)) -> x = k \/ In x (dkeys d).
Proof.
  induction d as [|[k' v'] d IH]; cbn [dset dkeys map fst]; [intros [<-|[]]; now left|]. destruct (String.eqb_spec k k') as [->|]; cbn [map fst]; [intros [<-|H]; [now left|right; now right]|].
  intros [<-|H]; [right; now left|]. destruct (IH H) as [->|H']; [now left|right; now right].
Qed.
(** What is read when the data files of [stem] are exactly those of [l] *)
Lemma directory_ok dim stem fs0 x (l : dict (dolfin_data fl)) listing : no_data_files stem (dkeys fs0) ->
  Forall (fun e => good_name (fst e) /\ data_ok (snd e)) l -> NoDup (map fst l) ->
  let fs := fold_left (fun fs e => dset (fst e) (snd e) fs) (map (fun e => (data_file stem (fst e), doc_of dim (snd e))) l) (dset (stem ++ ".xml") x fs0) in
  Permutation listing (dkeys fs) ->
  dget (stem ++ ".xml") fs = Some x /\ exists sub, Permutation sub l /\ read_dolfin_files stem listing fs [] = Ok (map (fun e => (fst e, [all_set (snd e)])) sub).
Proof.
  intros Hno Hl Hn. cbv zeta. set (docs := map (fun e => (data_file stem (fst e), doc_of dim (snd e))) l). set (fs1 := dset (stem ++ ".xml") x fs0).
  assert (Hkeys : Forall (fun f => data_name stem f = None) (dkeys fs1)).
  { apply Forall_forall. intros f Hf. apply dkeys_dset_in in Hf. destruct Hf as [->|Hf]; [apply data_name_mesh|apply data_name_other]. exact (proj1 (Forall_forall _ _) Hno f Hf). }
  assert (Hdk : dkeys docs = map (fun e => data_file stem (fst e)) l) by (unfold docs, dkeys; rewrite map_map; reflexivity).
  assert (Hnd : NoDup (dkeys docs)).
  { rewrite Hdk. clear - Hn. induction l as [|e l IH]; cbn [map] in *; [constructor|]. inversion Hn as [|? ? Hx Hn']; subst. constructor; [|now apply IH].
    intros Hin. apply in_map_iff in Hin. destruct Hin as (e' & E & Hin). apply data_file_inj in E. apply Hx. rewrite <- E. now apply in_map. }
  assert (Hnames : forall e, In e l -> data_name stem (data_file stem (fst e)) = Some (fst e)).
  { intros e He. destruct (proj1 (Forall_forall _ _) Hl e He) as ((G1 & G2) & _). now apply data_name_file. }
  assert (Hnew : forall k, In k (dkeys docs) -> ~ In k (dkeys fs1)).
  { intros k Hk Hin. rewrite Hdk in Hk. apply in_map_iff in Hk. destruct Hk as (e & <- & He). pose proof (proj1 (Forall_forall _ _) Hkeys _ Hin) as E. cbv beta in E. rewrite Hnames in E by exact He. discriminate. }
  assert (Hfs : fold_left (fun fs e => dset (fst e) (snd e) fs) docs fs1 = fs1 ++ docs) by (apply AbaqusFile.fold_dset_new; [exact Hnd|intros k Hk; now apply dget_None, Hnew]).
  rewrite Hfs. intros P. split; [apply dget_app_old; unfold fs1; apply dget_dset_same|].
  rewrite dkeys_app, Hdk in P. apply (filter_perm (fun f => match data_name stem f with Some _ => true | None => false end)) in P. rewrite filter_app in P.
  rewrite (filter_none _ (dkeys fs1)) in P by (eapply Forall_impl; [|exact Hkeys]; intros f Hf; cbv beta in *; now rewrite Hf). rewrite (filter_all _ (map _ l)) in P.
  2: { apply Forall_map, Forall_forall. intros e He. now rewrite Hnames. }
  cbn [app] in P. apply Permutation_map_inv in P. destruct P as (sub & E & P). exists sub. split; [now apply Permutation_sym|]. rewrite files_filter, E.
  rewrite (data_files_read dim); [reflexivity| | |auto].
  - eapply Permutation_Forall; [exact P|]. apply Forall_forall. intros e He. destruct (proj1 (Forall_forall _ _) Hl e He) as (G & D). split; [exact G|]. split; [exact D|].
    rewrite dget_app_new by (apply Hnew; rewrite Hdk; apply in_map_iff; eauto). apply In_dget; [exact Hnd|]. unfold docs. apply in_map_iff. exists e. split; [reflexivity|exact He].
  - eapply Permutation_NoDup; [apply Permutation_map; exact P|exact Hn].
Qed.
(** ** Whole meshes *)
Lemma written_name (m : dolfin_mesh fl) t w : written_type (do_cells m) t w -> dolfin_type m = Ok t /\ exists ct, dget t meshio_to_dolfin_type = Some ct /\ dolfin_name t ct w.
Proof.
  intros H. unfold dolfin_type. destruct H as [(-> & -> & b & Hb & Ht)|(-> & -> & (b & Hb & Ht) & Hno)].
  - assert (existsb (fun b => String.eqb (btype b) "tetra") (do_cells m) = true) as -> by (apply existsb_exists; exists b; split; [exact Hb|now rewrite Ht]). split; [reflexivity|].
    eexists. split; [reflexivity|]. right. auto.
  - assert (existsb (fun b => String.eqb (btype b) "tetra") (do_cells m) = false) as ->.
    { apply Bool.not_true_iff_false. intros E. apply existsb_exists in E. destruct E as (b' & Hb' & E). apply String.eqb_eq in E. now apply (Hno b'). }
    assert (existsb (fun b => String.eqb (btype b) "triangle") (do_cells m) = true) as -> by (apply existsb_exists; exists b; split; [exact Hb|now rewrite Ht]). split; [reflexivity|].
    eexists. split; [reflexivity|]. left. auto.
Qed.
Lemma mesh_written (m : dolfin_mesh fl) t w : dolfin_good m t w -> exists ct, dolfin_type m = Ok t /\ dolfin_name t ct w /\
  write_dolfin_mesh t m = Ok (dolfin_doc [("nsmap", "{'dolfin': 'https://fenicsproject.org/'}")] (do_dim m) ct (length (do_points m)) (enumerate (do_points m)) (length (cells_of t (do_cells m))) (enumerate (cells_of t (do_cells m)))).
Proof.
  intros (Hd & Hp & Ht & Hc). destruct (written_name m t w Ht) as (E & ct & Ect & Hn). exists ct. split; [exact E|]. split; [exact Hn|]. unfold write_dolfin_mesh.
  assert ((Nat.eqb (do_dim m) 2 || Nat.eqb (do_dim m) 3) = true) as -> by (destruct Hd as [-> | ->]; reflexivity). cbn [negb]. rewrite Ect. cbn [of_option bind].
  assert (Ef : concat (map bdata (filter (fun b => String.eqb (btype b) t) (do_cells m))) = cells_of t (do_cells m)).
  { clear. induction (do_cells m) as [|b bs IH]; [reflexivity|]. rewrite Ugrid.cells_of_cons, <- IH. cbn [filter map concat]. destruct (String.eqb (btype b) t); reflexivity. }
  rewrite Ef. reflexivity.
Qed.
Theorem dolfin_written (m : dolfin_mesh fl) t w flat stem fs0 l : dolfin_good m t w -> dolfin_names m -> lasts (do_data m) l -> no_data_files stem (dkeys fs0) ->
  exists fs, write_dolfin flat stem m fs0 = Ok fs /\ forall listing, Permutation listing (dkeys fs) ->
    exists sub, Permutation sub l /\
      read_dolfin stem listing fs = (if forallb (fun e => Nat.eqb (data_length (snd e)) (length (cells_of t (do_cells m)))) l
                                     then Ok (DolfinOut (map Some (do_points m)) t (map Some (cells_of t (do_cells m))) (map (fun e => (fst e, [all_set (snd e)])) sub))
                                     else Err ValueError).
Proof.
  intros Hg (Hn & Hd) HL Hno. destruct (mesh_written m t w Hg) as (ct & Et & Hct & Ew). destruct Hg as (Hdim & Hp & Ht & Hc).
  assert (Hl : Forall (fun e => good_name (fst e) /\ data_ok (snd e)) l).
  { clear - HL Hd. induction HL as [|[n ds] [n' d] cd l (E & ds' & E') _ IH]; [constructor|]. apply Forall_cons_iff in Hd. destruct Hd as [(H1 & H2 & _ & H3) H4]. cbn [fst snd] in *. subst. constructor; [|now apply IH].
    cbn [fst snd]. split; [now split|]. apply Forall_app in H3. destruct H3 as [_ H3]. now inversion H3. }
  assert (Hnl : map fst l = map fst (do_data m)) by (clear - HL; induction HL as [|nd e cd l (E & _) _ IH]; [reflexivity|]; cbn [map]; now rewrite E, IH).
  unfold write_dolfin. rewrite Et. cbn [bind]. rewrite Ew. cbn [bind]. eexists. split.
  - apply (names_ok _ stem (do_data m) l); [exact HL|]. eapply Forall_impl; [|exact Hd]. intros nd (_ & _ & _ & H). exact H.
  - intros listing P. assert (Hn' : NoDup (map fst l)) by (now rewrite Hnl).
    match type of P with context [dset (stem ++ ".xml")%string ?x fs0] => destruct (directory_ok (if Nat.eqb (do_dim m) 2 || flat then 2 else 3) stem fs0 x l listing Hno Hl Hn' P) as (Hx & sub & Ps & R) end. exists sub. split; [exact Ps|].
    unfold read_dolfin. rewrite Hx. cbn [of_option bind]. rewrite (doc_ok _ _ t ct w) by (auto; apply Permutation_refl). cbn [bind]. rewrite R. cbn [bind ds_points ds_type ds_cells fst].
    assert (E : forallb (fun kv => match snd kv with [d] => Nat.eqb (filled_length d) (length (map Some (cells_of t (do_cells m)))) | _ => false end) (map (fun e => (fst e, [all_set (snd e)])) sub)
                = forallb (fun e => Nat.eqb (data_length (snd e)) (length (cells_of t (do_cells m)))) l).
    { assert (Hs : Forall (fun e => data_ok (snd e)) sub) by (eapply Permutation_Forall; [apply Permutation_sym, Ps|]; eapply Forall_impl; [|exact Hl]; intros e (_ & H); exact H).
      transitivity (forallb (fun e => Nat.eqb (data_length (snd e)) (length (cells_of t (do_cells m)))) sub).
      - clear - Hs. induction Hs as [|[n d] sub H _ IH]; [reflexivity|]. cbn [map forallb snd]. rewrite IH. f_equal. rewrite map_length. destruct d; [| | |destruct H]; cbn [all_set filled_length data_length]; now rewrite map_length.
      - clear - Ps. induction Ps as [|x a b H IH|x y a|a b c H1 IH1 H2 IH2]; cbn [forallb]; [reflexivity|now rewrite IH| |congruence]. now rewrite !andb_assoc, (andb_comm (Nat.eqb (data_length (snd y)) _)). }
    rewrite E. reflexivity.
Qed.
End Read.
