(** Model of the points of the mesh of an arbitrary resolution surface
    (components/surface/arbitrary_resolution.py) and of the parameters of the icosphere
    (components/surface/icosphere.py).  Floats are R; printing, and the mesh that uxarray and
    trimesh build, are not modelled. *)
From Coq Require Import Reals ZArith List.
From Verif Require Import Common Hires_model.
Import ListNotations.
Open Scope R_scope.

(** arbitrary_resolution.py:110-126 _sph2cart with radius 1 *)
Definition sph2cart (p : R * R) : vec := let '(theta, phi) := p in (sin theta * cos phi, sin theta * sin phi, cos theta).
Definition in_range (lo hi x : R) : bool := if Rle_dec lo x then (if Rlt_dec x hi then true else false) else false.

(** arbitrary_resolution.py:132-154 the angles (theta, phi), with the default ranges of
    longitude and latitude, the only ones used; None when there are no points. *)
Definition number (distance : R) : Z := Int_part (4 * PI / distance ^ 2).
Definition area (distance : R) : R := 4 * PI / IZR (number distance).
Definition mtheta (distance : R) : Z := round (PI / sqrt (area distance)).
Definition dtheta (distance : R) : R := PI / IZR (mtheta distance).
Definition dphi (distance : R) : R := area distance / dtheta distance.
Definition mphi (distance theta : R) : Z := Z.max 1 (round (2 * PI * sin theta / dphi distance)).
Definition thetavals (distance : R) : list R :=
  filter (in_range (-90 * (PI / 180) + PI / 2) (90 * (PI / 180) + PI / 2))
    (map (fun k => PI * (INR k + 0.5) / IZR (mtheta distance)) (seq 0 (Z.to_nat (mtheta distance)))).
Definition phivals (distance theta : R) : list R :=
  filter (in_range (-180 * (PI / 180) + PI) (180 * (PI / 180) + PI))
    (map (fun j => 2 * PI * INR j / IZR (mphi distance theta)) (seq 0 (Z.to_nat (mphi distance theta)))).
Definition angles (distance : R) : option (list (R * R)) :=
  if Z_lt_dec (number distance) 1 then None
  else match List.concat (map (fun theta => map (fun phi => (theta, phi)) (phivals distance theta)) (thetavals distance)) with
       | [] => None
       | l => Some l
       end.

(** numpy.round: half to even, at a number of decimals *)
Definition round_to (decimals : Z) (x : R) : R := IZR (round (x * powerRZ 10 decimals)) / powerRZ 10 decimals.
(** arbitrary_resolution.py:157 *)
Definition decimals (distance : R) : Z := ceil (ln (2 * PI / distance) / ln 10).
(** numpy.unique(axis=0): the rows in lexicographic order, equal rows once. *)
Fixpoint lex (l m : list R) : comparison :=
  match l, m with
  | [], [] => Eq
  | [], _ => Lt
  | _, [] => Gt
  | x :: l', y :: m' => match total_order_T x y with
                        | inleft (left _) => Lt
                        | inleft (right _) => lex l' m'
                        | inright _ => Gt
                        end
  end.
Fixpoint insert_row (l : list R) (rows : list (list R)) : list (list R) :=
  match rows with
  | [] => [l]
  | m :: rows' => match lex l m with
                  | Lt => l :: rows
                  | Eq => rows
                  | Gt => m :: insert_row l rows'
                  end
  end.
Definition unique (rows : list (list R)) : list (list R) := fold_right insert_row [] rows.

(** arbitrary_resolution.py:156-161 the rows of the returned array: the transpose of the
    points is rounded and made unique, so that it is its three rows that are compared. *)
Definition coordinate_rows (pts : list vec) : list (list R) :=
  [map (fun p => fst (fst p)) pts; map (fun p => snd (fst p)) pts; map snd pts].
Definition distribute_points (distance : R) : option (list (list R)) :=
  match angles distance with
  | None => None
  | Some l => Some (unique (map (map (round_to (decimals distance))) (coordinate_rows (map sph2cart l))))
  end.

Fixpoint columns (a b c : list R) : list vec :=
  match a, b, c with
  | x :: a', y :: b', z :: c' => (x, y, z) :: columns a' b' c'
  | _, _, _ => []
  end.
Definition set_first (v : vec) (l : list vec) : list vec := match l with [] => [] | _ :: l' => v :: l' end.
Fixpoint set_last (v : vec) (l : list vec) : list vec :=
  match l with [] => [] | [_] => [v] | x :: l' => x :: set_last v l' end.
(** arbitrary_resolution.py:163-177 _generate_face_distribution: assigning three numbers to a
    column of an array that does not have three rows is a ValueError; None has no columns. *)
Definition generate (pix radius : R) : result (list vec) :=
  match distribute_points (pix / radius) with
  | None => Err TypeError
  | Some [a; b; c] => Ok (set_last (0, 0, -1) (set_first (0, 0, 1) (columns a b c)))
  | Some _ => Err ValueError
  end.

(** arbitrary_resolution.py:70-78 the setter of pix: None is the default. *)
Definition set_pix (radius : R) (value : option R) : result R :=
  match value with
  | None => Ok (sqrt (4 * PI * radius ^ 2) * 1e-3)
  | Some v => if Rle_dec v 0 then Err TypeError else Ok v
  end.

(** icosphere.py:88-104 an icosphere surface: the level of the grid, and the pixel size once it
    has been asked for. *)
Record icosphere := mkIco { i_radius : R; i_level : Z; i_pix : option R }.
(** int() of a real number *)
Definition py_int (x : R) : Z := if Rlt_dec x 0 then (- Int_part (- x))%Z else Int_part x.
Definition set_gridlevel (v : R) (s : icosphere) : result icosphere :=
  if Rlt_dec v 0 then Err ValueError else Ok (mkIco (i_radius s) (py_int v) (i_pix s)).
Definition ico_pix (s : icosphere) : R * icosphere :=
  match i_pix s with
  | Some p => (p, s)
  | None => let p := sqrt (4 * PI * i_radius s ^ 2 / (10 * 4 ^ Z.to_nat (i_level s) + 2)) in
            (p, mkIco (i_radius s) (i_level s) (Some p))
  end.
