(** Meshes that an AVS-UCD file can hold, and what a round trip makes of them. *)
From Coq Require Import List String.
From Verif.Lib Require Import Base Text Lines.
From Verif.Model Require Import Core Avsucd.
From Verif.Spec Require Import Core Blocks Mdpa.

(** The supported types, with their numbers of nodes. *)
Definition avs_types : list (string * nat) :=
  [("vertex", 1); ("line", 2); ("triangle", 3); ("quad", 4); ("tetra", 4); ("pyramid", 5); ("wedge", 6); ("hexahedron", 8)].
Definition avs_block (n : nat) (b : block) : Prop :=
  exists w, In (btype b, w) avs_types /\
    Forall (fun c => length c = w /\ Forall (fun i => (0 <= i < Z.of_nat n)%Z) c) (bdata b).

(** A name of data that survives: no blanks and no comma. *)
Definition plain_label (k : string) : Prop := word k = true /\ char_in "," k = false.
(** [n] rows of numbers of the right width. *)
Definition array_ok {F} (n : nat) (a : shape * list (list F)) : Prop :=
  length (snd a) = n /\ 0 < width (fst a) /\ Forall (fun r => length r = width (fst a)) (snd a).
(** Cell data fits the blocks. *)
Definition cell_array_ok {F} (bs : list block) (a : cdata F) : Prop :=
  match a with
  | CInts v => Forall2 (fun b l => length l = blen b) bs v
  | CReals s v => 0 < width s /\ Forall2 (fun b l => length l = blen b /\ Forall (fun r => length r = width s) l) bs v
  end.

(** The first cell data of integers are the materials; without any they are 0. *)
Fixpoint first_ints {F} (d : dict (cdata F)) : option (string * list (list Z)) :=
  match d with
  | [] => None
  | (k, CInts v) :: _ => Some (k, v)
  | _ :: d' => first_ints d'
  end.
Definition materials {F} (m : avs_mesh F) : list Z :=
  match first_ints (av_cdata m) with
  | Some (_, v) => concat v
  | None => map (fun _ => 0%Z) (all_cells (av_cells m))
  end.
(** All other cell data: rows of real numbers over all cells; [ofZ] converts integers. *)
Fixpoint other_data {F} (ofZ : Z -> F) (skip : bool) (d : dict (cdata F)) : dict (shape * list (list F)) :=
  match d with
  | [] => []
  | (k, CInts v) :: d' =>
      if skip then other_data ofZ false d'
      else (k, (None, map (fun z => [ofZ z]) (concat v))) :: other_data ofZ false d'
  | (k, CReals s v) :: d' => (k, (s, concat v)) :: other_data ofZ skip d'
  end.

(** Data come back rounded ([r]) to the precision of the file; rows of one number become single numbers. *)
Definition seen {F} (r : F -> F) (a : shape * list (list F)) : shape * list (list F) :=
  (if Nat.eqb (width (fst a)) 1 then None else fst a, map (map r) (snd a)).

(** What is assumed about numbers: coordinates are printed exactly, data up to rounding, and the numbers 1, ..., [n] can be read as
    reals and converted back. *)
Definition avs_floats (fl : floats) (dfmt : fl -> string) (toZ : fl -> Z) (r : fl -> fl) (n : nat) : Prop :=
  floats_ok fl /\ (forall x : fl, char_in "#" (ffmt x) = false) /\
  (forall x, word (dfmt x) = true /\ fparse (dfmt x) = Some (r x)) /\
  (forall k, k <= n -> exists x : fl, fparse (str_of_nat k) = Some x /\ toZ x = Z.of_nat k).

Definition avs_good {fl : floats} (ofZ : Z -> fl) (m : avs_mesh fl) : Prop :=
  Forall (fun p => length p = 2 \/ length p = 3) (av_points m) /\
  Forall (avs_block (length (av_points m))) (av_cells m) /\
  NoDup (dkeys (av_pdata m)) /\ Forall (fun kv => plain_label (fst kv) /\ array_ok (length (av_points m)) (snd kv)) (av_pdata m) /\
  NoDup (dkeys (av_cdata m)) /\ Forall (fun kv => plain_label (fst kv) /\ cell_array_ok (av_cells m) (snd kv)) (av_cdata m) /\
  (av_cells m = [] -> av_cdata m = []).
