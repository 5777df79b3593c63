(** SVG pictures (C80). *)
From Coq Require Import QArith Qabs Qround String Lia.
From Verif.Lib Require Import Base Text.
From Verif.Model Require Import Core Svg.
From Verif.Spec Require Import Svg.
From Verif.Proofs Require Import Svg.
Import ListNotations.
Open Scope nat_scope.

(** C80: a flat mesh is drawn: one path for every line, triangle and quadrilateral, in the order of the mesh, through its
    nodes in their order.  The picture is the mesh scaled by one positive factor and turned upside down (the second axis of a
    picture points downwards); the view box is the smallest rectangle around all points; its width is the requested one. *)
Theorem C80_picture o ints dim points bs :
  (forall x y, (x == y)%Q -> so_fmt o x = so_fmt o y) ->
  dim = 2 \/ dim = 3 -> points <> [] -> (dim = 3 -> Forall (fun p => Qabs (nth 2 p 0) <= 1 # 100000000000000)%Q points) ->
  drawable (length points) bs -> (forall iw, so_image_width o = Some iw -> 0 < iw)%Q ->
  ints = false \/ so_image_width o = None ->
  exists s sum x0 y0 w h,
    write_svg o ints dim points bs =
      Ok (Svg (join " " (map (so_fmt o) [x0; y0; w; h]))
             (style_text (so_fill o) (so_stroke o) match so_stroke_width o with Some t => t | None => so_str o (w / 100)%Q end)
             (map (fun tc => path (so_fmt o) (fst tc) (map (position s sum) (nodes points (snd tc)))) (drawn_cells bs))) /\
    (0 < s)%Q /\ tight x0 y0 w h (map (position s sum) points) /\
    (forall iw, so_image_width o = Some iw -> (exists p q, In p points /\ In q points /\ ~ x_of p == x_of q)%Q -> w == iw)%Q /\
    (so_image_width o = None -> s == 1)%Q.
Proof. intros Hf. exact (svg_picture o Hf ints dim points bs). Qed.
Print Assumptions C80_picture.

(** A mesh that is not flat is refused. *)
Theorem C80_not_flat o ints points bs p : In p points -> (1 # 100000000000000 < Qabs (nth 2 p 0))%Q ->
  write_svg o ints 3 points bs = Err WriteError.
Proof. intros Hp H. unfold write_svg. now rewrite (flat_refused 3 points p eq_refl Hp H). Qed.
Print Assumptions C80_not_flat.

(** Points that are integers cannot be drawn at a given width (100 by default) if the mesh has one. *)
Theorem C80_integers_refuted o dim points bs iw p q :
  dim = 2 \/ dim = 3 -> (dim = 3 -> Forall (fun p => Qabs (nth 2 p 0) <= 1 # 100000000000000)%Q points) ->
  so_image_width o = Some iw -> In p points -> In q points -> (~ x_of p == x_of q)%Q ->
  write_svg o true dim points bs = Err TypeError.
Proof.
  intros Hd Hf Hiw Hp Hq Hx. unfold write_svg. rewrite (flat_ok _ _ Hf). cbn [negb]. cbn iota.
  replace (Nat.ltb dim 2) with false by (destruct Hd as [-> | ->]; reflexivity). rewrite Hiw.
  change (map (fun p : list Q => nth 0 p 0%Q) points) with (map x_of points).
  assert (Nx : map x_of points <> []) by (destruct points; [destruct Hp|discriminate]).
  destruct (column_min_ok _ Nx) as [_ L1]. destruct (column_max_ok _ Nx) as [_ L2].
  match goal with |- context [Qeq_bool ?a 0] => destruct (Qeq_bool a 0) eqn:E0 end; [|reflexivity].
  apply Qeq_bool_iff in E0. exfalso. apply Hx.
  pose proof (L1 _ (in_map x_of _ _ Hp)). pose proof (L2 _ (in_map x_of _ _ Hp)). pose proof (L1 _ (in_map x_of _ _ Hq)). pose proof (L2 _ (in_map x_of _ _ Hq)).
  assert (E : (column_max (map x_of points) == column_min (map x_of points))%Q).
  { rewrite <- (Qplus_0_l (column_min _)), <- E0. ring. }
  rewrite E in *. apply Qle_antisym; eapply Qle_trans; eauto.
Qed.
Print Assumptions C80_integers_refuted.

(** A mesh without points is an empty picture. *)
Theorem C80_empty o ints dim bs : dim = 2 \/ dim = 3 -> drawable 0 bs ->
  (forall x y, (x == y)%Q -> so_fmt o x = so_fmt o y) -> (forall x y, (x == y)%Q -> so_str o x = so_str o y) ->
  write_svg o ints dim [] bs =
    Ok (Svg (join " " (map (so_fmt o) [0; 0; 0; 0]%Q))
            (style_text (so_fill o) (so_stroke o) match so_stroke_width o with Some t => t | None => so_str o 0%Q end) []).
Proof.
  intros Hd Hb Hf Hs. unfold write_svg.
  replace (flat dim []) with true by (unfold flat; now rewrite orb_true_r). cbn [negb]. cbn iota.
  replace (Nat.ltb dim 2) with false by (destruct Hd as [-> | ->]; reflexivity). cbn [map column_min column_max].
  assert (E : forall x : result (Q * Q * Q * Q * list (Q * Q)), match so_image_width o with
     | Some iw => if Qeq_bool (0 - 0) 0 then x else if ints then Err TypeError
                  else Ok (0 * (iw / (0 - 0)), 0 * (iw / (0 - 0)), (0 - 0) * (iw / (0 - 0)), (0 - 0) * (iw / (0 - 0)), @nil (Q * Q))%Q
     | None => x end = x) by (intros x; destruct (so_image_width o); reflexivity).
  rewrite E. cbn [bind].
  assert (N : drawn_cells bs = []).
  { unfold drawable in Hb. destruct (drawn_cells bs) as [|[t c] l]; [reflexivity|]. inversion Hb as [|? ? [H1 H2] _]; subst. cbn [fst snd] in *.
    destruct c as [|i c]; [|inversion H2; subst; cbn in *; lia]. exfalso. cbn in H1. intuition discriminate. }
  destruct (blocks_ok (so_fmt o) Hf [] (fun _ => (0, 0)%Q) [] bs (Forall2_nil _) Hb) as (l & -> & El). rewrite N in El. cbn [map] in El. cbn [bind]. rewrite El.
  assert (Z0 : (0 - 0 == 0)%Q) by reflexivity. rewrite (Hf _ _ Z0).
  assert (Z1 : ((0 - 0) / 100 == 0)%Q) by reflexivity. rewrite (Hs _ _ Z1).
  assert (Est : forall sw, ("path {" ++ join "; " ["fill: " ++ so_fill o; "stroke: " ++ so_stroke o; "stroke-width: " ++ sw; "stroke-linejoin:bevel"] ++ "}")%string
                = style_text (so_fill o) (so_stroke o) sw).
  { intros sw. unfold style_text, join. cbn. repeat (rewrite append_assoc; cbn). reflexivity. }
  now rewrite Est.
Qed.
Print Assumptions C80_empty.

(** Numbers printed as integers (rounded down) *)
Definition ex_options (iw : option Q) : svg_options :=
  SvgOptions (fun x => str_of_Z (Qfloor x)) (fun x => str_of_Z (Qfloor x)) None iw "red" "blue".
Definition ex_points : list (list Q) := [[0; 1]; [2; 1]; [2; 4]; [0; 4]]%Q.
Definition ex_cells : list block :=
  [Block "vertex" [[0%Z]]; Block "triangle" [[0; 1; 2]]%Z; Block "triangle6" [[0; 1; 2; 3; 0; 1]]%Z; Block "line" [[3; 2]; [0; 3]]%Z].
Example C80_instance :
  (forall iw x y, (x == y)%Q -> so_fmt (ex_options iw) x = so_fmt (ex_options iw) y) /\ drawable (length ex_points) ex_cells /\
  write_svg (ex_options (Some 100%Q)) false 2 ex_points ex_cells =
    Ok (Svg "0 50 100 150" "path {fill: red; stroke: blue; stroke-width: 1; stroke-linejoin:bevel}"
            ["M 0 200L 100 200L 100 50Z"; "M 0 50L 100 50"; "M 0 200L 0 50"])%string /\
  write_svg (ex_options (Some 100%Q)) true 2 ex_points ex_cells = Err TypeError /\
  write_svg (ex_options None) true 3 [[0; 1; 1]]%Q [] = Err WriteError.
Proof.
  split; [intros iw x y E; cbn [so_fmt ex_options]; now rewrite (Qfloor_comp _ _ E)|].
  split; [|repeat split; vm_compute; reflexivity].
  unfold drawable. cbn [drawn_cells ex_cells flat_map btype bdata map app].
  change (drawn "vertex") with false. change (drawn "triangle") with true. change (drawn "triangle6") with false. change (drawn "line") with true.
  cbn [map app]. repeat (apply Forall_cons; [split; [cbn; tauto|repeat (constructor; [cbn; lia|]); constructor]|]). constructor.
Qed.
