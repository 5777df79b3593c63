(** Proofs about structured grids (C18). *)
From Verif.Lib Require Import Base Facts Runs Facts2.
From Verif.Model Require Import Core Vtk.
From Verif.Spec Require Import Core Blocks Vtk.

Lemma nth_seq_map {A} (f : Z -> A) n m : m < n ->
  nth_error (map f (map Z.of_nat (seq 0 n))) m = Some (f (Z.of_nat m)).
Proof.
  intros H. rewrite !nth_error_map. rewrite (nth_error_nth' _ 0) by (rewrite seq_length; lia).
  rewrite seq_nth by lia. reflexivity.
Qed.

Lemma div2 i j ex : (0 <= i < ex)%Z -> ((i + ex * j) / ex = j)%Z.
Proof. intros H. symmetry. apply Z.div_unique with (r := i); lia. Qed.

Lemma div3 i j k ex ey : (0 <= i < ex)%Z -> (0 <= j < ey)%Z ->
  ((i + ex * (j + ey * k)) / (ex * ey) = k /\ (i + ex * (j + ey * k)) mod (ex * ey) = i + ex * j)%Z.
Proof.
  intros Hi Hj. assert (0 <= i + ex * j < ex * ey)%Z by nia. split.
  - symmetry. apply Z.div_unique with (r := (i + ex * j)%Z); [lia|]. ring.
  - symmetry. apply Z.mod_unique with (q := k); [lia|]. ring.
Qed.

Lemma boxes_gt n : 1 < n -> boxes n = n - 1. Proof. unfold boxes. lia. Qed.

Lemma idx_lt i j k a b c : i < a -> j < b -> k < c -> i + a * (j + b * k) < a * b * c.
Proof. intros. assert (j + b * k < b * c) by nia. nia. Qed.

Ltac list_eq := apply f_equal; repeat (apply f_equal2; [nia|]); reflexivity.

Lemma zn1 n : 1 <= n -> (Z.of_nat n - 1 = Z.of_nat (n - 1))%Z. Proof. lia. Qed.
Lemma prod1 a : Z.to_nat (Z.of_nat a * 1) = a. Proof. lia. Qed.
Lemma prod2 a b : Z.to_nat (Z.of_nat a * (Z.of_nat b * 1)) = a * b.
Proof. rewrite Z.mul_1_r, <- Nat2Z.inj_mul, Nat2Z.id. reflexivity. Qed.
Lemma prod3 a b c : Z.to_nat (Z.of_nat a * (Z.of_nat b * (Z.of_nat c * 1))) = a * b * c.
Proof. rewrite Z.mul_1_r, <- !Nat2Z.inj_mul, Nat2Z.id. lia. Qed.

Lemma generate_cells_ok nx ny nz : 1 <= nx -> 1 <= ny -> 1 <= nz -> 1 < nx * ny * nz ->
  exists rows, generate_cells [nx; ny; nz] = Ok (rows, box_code (axes nx ny nz)) /\
    length rows = boxes nx * boxes ny * boxes nz /\
    forall i j k, i < boxes nx -> j < boxes ny -> k < boxes nz ->
      nth_error rows (i + boxes nx * (j + boxes ny * k)) =
        Some (Z.of_nat (length (box_corners (axes nx ny nz) (i, j, k)))
              :: map (point_index nx ny) (box_corners (axes nx ny nz) (i, j, k))) /\
      Forall (in_grid nx ny nz) (box_corners (axes nx ny nz) (i, j, k)).
Proof.
  intros Hx Hy Hz H1. unfold generate_cells, axes. cbn [filter].
  destruct (Nat.ltb_spec 1 nx) as [Lx|Lx], (Nat.ltb_spec 1 ny) as [Ly|Ly], (Nat.ltb_spec 1 nz) as [Lz|Lz];
    try (assert (nx = 1) by lia; subst nx); try (assert (ny = 1) by lia; subst ny);
    try (assert (nz = 1) by lia; subst nz); try (exfalso; lia);
    cbn [map fold_right app box_code]; try rewrite (zn1 nx Hx); try rewrite (zn1 ny Hy); try rewrite (zn1 nz Hz);
    rewrite ?prod3, ?prod2, ?prod1; (eexists; split; [reflexivity|]);
    rewrite !map_length, seq_length; try rewrite (boxes_gt nx Lx); try rewrite (boxes_gt ny Ly); try rewrite (boxes_gt nz Lz);
    try change (boxes 1) with 1.
  - split; [nia|]. intros i j k Hi Hj Hk. split.
    + rewrite nth_seq_map by (pose proof (idx_lt i j k _ _ _ Hi Hj Hk); nia).
      cbn [box_corners quad_corners gadd length app map point_index]. unfold grid_point.
      destruct (div3 (Z.of_nat i) (Z.of_nat j) (Z.of_nat k) (Z.of_nat (nx - 1)) (Z.of_nat (ny - 1))) as [D1 D2]; [lia|lia|].
      replace (Z.of_nat (i + (nx - 1) * (j + (ny - 1) * k)))
        with (Z.of_nat i + (Z.of_nat (nx - 1)) * (Z.of_nat j + (Z.of_nat (ny - 1)) * Z.of_nat k))%Z by nia.
      rewrite D1, D2, div2 by lia. list_eq.
    + cbn [box_corners quad_corners gadd app]. repeat constructor; lia.
  - split; [nia|]. intros i j k Hi Hj Hk. assert (k = 0) by lia; subst k. split.
    + rewrite nth_seq_map by (pose proof (idx_lt i j 0 _ _ _ Hi Hj Hk); nia).
      cbn [box_corners quad_corners gadd length app map point_index]. unfold grid_point.
      replace (Z.of_nat (i + (nx - 1) * (j + (ny - 1) * 0)))
        with (Z.of_nat i + (Z.of_nat (nx - 1)) * Z.of_nat j)%Z by nia.
      rewrite div2 by lia. list_eq.
    + cbn [box_corners quad_corners gadd app]. repeat constructor; lia.
  - split; [nia|]. intros i j k Hi Hj Hk. assert (j = 0) by lia; subst j. split.
    + rewrite nth_seq_map by (pose proof (idx_lt i 0 k _ _ _ Hi Hj Hk); nia).
      cbn [box_corners quad_corners gadd length app map point_index]. unfold grid_point.
      replace (Z.of_nat (i + (nx - 1) * (0 + 1 * k)))
        with (Z.of_nat i + (Z.of_nat (nx - 1)) * Z.of_nat k)%Z by nia.
      rewrite div2 by lia. list_eq.
    + cbn [box_corners quad_corners gadd app]. repeat constructor; lia.
  - split; [nia|]. intros i j k Hi Hj Hk. assert (k = 0) by lia; assert (j = 0) by lia; subst j k. split.
    + rewrite nth_seq_map by lia.
      cbn [box_corners quad_corners gadd length app map point_index]. unfold grid_point.
      list_eq.
    + cbn [box_corners quad_corners gadd app]. repeat constructor; lia.
  - split; [nia|]. intros i j k Hi Hj Hk. assert (i = 0) by lia; subst i. split.
    + rewrite nth_seq_map by (pose proof (idx_lt 0 j k _ _ _ Hi Hj Hk); nia).
      cbn [box_corners quad_corners gadd length app map point_index]. unfold grid_point.
      replace (Z.of_nat (0 + 1 * (j + (ny - 1) * k)))
        with (Z.of_nat j + (Z.of_nat (ny - 1)) * Z.of_nat k)%Z by nia.
      rewrite div2 by lia. list_eq.
    + cbn [box_corners quad_corners gadd app]. repeat constructor; lia.
  - split; [nia|]. intros i j k Hi Hj Hk. assert (k = 0) by lia; assert (i = 0) by lia; subst i k. split.
    + rewrite nth_seq_map by lia.
      cbn [box_corners quad_corners gadd length app map point_index]. unfold grid_point.
      list_eq.
    + cbn [box_corners quad_corners gadd app]. repeat constructor; lia.
  - split; [nia|]. intros i j k Hi Hj Hk. assert (j = 0) by lia; assert (i = 0) by lia; subst i j. split.
    + rewrite nth_seq_map by lia.
      cbn [box_corners quad_corners gadd length app map point_index]. unfold grid_point.
      list_eq.
    + cbn [box_corners quad_corners gadd app]. repeat constructor; lia.
Qed.

Lemma generate_points_ok {F} (xs ys zs : list F) :
  length (generate_points xs ys zs) = length xs * length ys * length zs /\
  forall i j k, i < length xs -> j < length ys -> k < length zs ->
    nth_error (generate_points xs ys zs) (i + length xs * (j + length ys * k)) =
    Some (nth_error xs i, nth_error ys j, nth_error zs k).
Proof.
  unfold generate_points. split; [now rewrite map_length, seq_length|].
  intros i j k Hi Hj Hk. pose proof (idx_lt i j k _ _ _ Hi Hj Hk) as Hl.
  rewrite nth_error_map, (nth_error_nth' _ 0) by (rewrite seq_length; lia).
  rewrite seq_nth by lia. cbn [option_map Nat.add].
  set (a := length xs) in *. set (b := length ys) in *.
  assert (E1 : (i + a * (j + b * k)) mod a = i) by (symmetry; apply Nat.mod_unique with (q := j + b * k); lia).
  assert (E2 : (i + a * (j + b * k)) / a = j + b * k) by (symmetry; apply Nat.div_unique with (r := i); lia).
  assert (E3 : (j + b * k) mod b = j) by (symmetry; apply Nat.mod_unique with (q := k); lia).
  assert (E4 : (i + a * (j + b * k)) / (a * b) = k).
  { symmetry. apply Nat.div_unique with (r := i + a * j); nia. }
  now rewrite E1, E2, E3, E4.
Qed.
