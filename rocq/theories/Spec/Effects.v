(** What it means that writing a mesh has no effect on it (C57). *)
From Coq Require Import ZArith List String Ascii.
From Verif.Lib Require Import Base Text.
From Verif.Model Require Import Core Effects.
Import ListNotations.

(** The mesh object after the call is equal to the mesh before it. *)
Definition leaves_unchanged {M File} (w : M -> result File * M) (m : M) : Prop := snd (w m) = m.
(** Writing the same object again has the same outcome: the same file, or the same error. *)
Definition same_twice {M File} (w : M -> result File * M) (m : M) : Prop := fst (w (snd (w m))) = fst (w m).

(** An array that has rows, the first of which has two entries *)
Definition vectors_2d {G} (a : arr (entry G)) : Prop :=
  exists x y l, a = AOther (Vec [x; y] :: l).
(** The mesh has nothing that the VTK writers convert. *)
Definition no_vectors_2d {G} (m : mesh (entry G)) : Prop :=
  (forall name a, In (name, a) (point_data m) -> ~ vectors_2d a) /\
  (forall name l a, In (name, l) (cell_data m) -> In a l -> ~ vectors_2d a).

(** C65: [names] joined with a character that is in none of them, with [s], another character that is in none of them,
    for every space *)
Definition names_kept (names : list string) (key : string) : Prop :=
  exists c s, Forall (fun n => char_in c n = false /\ char_in s n = false) names /\
    split_char c key = map (replace_char " " s) names.
