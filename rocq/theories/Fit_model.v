(** Model of the rim fitting of crates/cratermaker-components/src/counting/mod.rs: circle and
    ellipse fits, conic parameters and distances to a rim.
    Simplifications: f64 is idealised as R; NaN is None where it can occur; [inv] and [eig]
    of ndarray_linalg are the exact inverse and an argument giving the eigenvectors. *)
From Coq Require Import Reals List.
From Verif Require Import Common Trig_model RSum.
Import ListNotations.
Open Scope R_scope.

(** A point and its weight; a weight may be NaN (faces without a rim score: 770-773). *)
Definition wpoint : Type := (R * R * option R)%type.
Definition px (p : wpoint) : R := fst (fst p).
Definition py (p : wpoint) : R := snd (fst p).
(** if w > 0.0 { w } else { 0.0 }: 1287 (false for NaN). *)
Definition posw (w : option R) : R :=
  match w with Some v => if Rlt_dec 0 v then v else 0 | None => 0 end.
(** if w > 0.0 { w.sqrt() } else { 0.0 }: 886, 1032, 1197. *)
Definition sqrtw (w : option R) : R :=
  match w with Some v => if Rlt_dec 0 v then sqrt v else 0 | None => 0 end.
(** weights.sum(): NaN if a weight is NaN. *)
Fixpoint osum (l : list (option R)) : option R :=
  match l with
  | [] => Some 0
  | w :: r => match w, osum r with Some a, Some b => Some (a + b) | _, _ => None end
  end.
(** The three arrays as one list; the length assertions of 867-868, 1010-1011, 1168-1169,
    1282-1283 (a panic is an error here). *)
Definition points (x y : list R) (w : list (option R)) : result (list wpoint) :=
  if Nat.eqb (List.length x) (List.length y) then
    if Nat.eqb (List.length x) (List.length w) then Ok (combine (combine x y) w) else Err RustErr
  else Err RustErr.

(** fit_one_circle_fixed_center: 1275-1322, after the assertions. *)
Definition dist (x0 y0 : R) (p : wpoint) : R := sqrt ((px p - x0) * (px p - x0) + (py p - y0) * (py p - y0)).
Definition fit_circle_fixed (pts : list wpoint) (x0 y0 : R) : result (R * R) :=
  let wsum := lsum (fun p => posw (snd p)) pts in
  if Req_EM_T wsum 0 then Err RustErr
  else
    let r := lsum (fun p => dist x0 y0 p * posw (snd p)) pts / wsum in
    let wrms := sqrt (lsum (fun p => ((dist x0 y0 p - r) * (dist x0 y0 p - r)) * posw (snd p)) pts / wsum) in
    Ok (r, wrms).

(* ------------------------------ 3x3 matrices ------------------------------ *)
Definition vec3 : Type := (R * R * R)%type.
Definition mat3 : Type := (vec3 * vec3 * vec3)%type.    (** rows *)
Definition dot3 (u v : vec3) : R := let '(a, b, c) := u in let '(d, e, f) := v in a * d + b * e + c * f.
Definition mv (m : mat3) (v : vec3) : vec3 := let '(r1, r2, r3) := m in (dot3 r1 v, dot3 r2 v, dot3 r3 v).
Definition det3 (m : mat3) : R :=
  let '((a, b, c), (d, e, f), (g, h, i)) := m in
  a * (e * i - f * h) - b * (d * i - f * g) + c * (d * h - e * g).
Definition transpose (m : mat3) : mat3 :=
  let '((a, b, c), (d, e, f), (g, h, i)) := m in ((a, d, g), (b, e, h), (c, f, i)).
Definition madd (m n : mat3) : mat3 :=
  let '((a, b, c), (d, e, f), (g, h, i)) := m in let '((a', b', c'), (d', e', f'), (g', h', i')) := n in
  ((a + a', b + b', c + c'), (d + d', e + e', f + f'), (g + g', h + h', i + i')).
Definition mmul (m n : mat3) : mat3 :=
  let '(r1, r2, r3) := m in let '(c1, c2, c3) := transpose n in
  ((dot3 r1 c1, dot3 r1 c2, dot3 r1 c3), (dot3 r2 c1, dot3 r2 c2, dot3 r2 c3), (dot3 r3 c1, dot3 r3 c2, dot3 r3 c3)).
Definition mscale (s : R) (m : mat3) : mat3 :=
  let '((a, b, c), (d, e, f), (g, h, i)) := m in
  ((s * a, s * b, s * c), (s * d, s * e, s * f), (s * g, s * h, s * i)).
(** .inv()?: an error for a singular matrix. *)
Definition inv3 (m : mat3) : result mat3 :=
  let '((a, b, c), (d, e, f), (g, h, i)) := m in
  let det := det3 m in
  if Req_EM_T det 0 then Err RustErr
  else Ok (((e * i - f * h) / det, (c * h - b * i) / det, (b * f - c * e) / det),
           ((f * g - d * i) / det, (a * i - c * g) / det, (c * d - a * f) / det),
           ((d * h - e * g) / det, (b * g - a * h) / det, (a * e - b * d) / det)).

(** (&w_col * &M).t().dot(&(&w_col * &N)), entry by entry: rows [f p] and [g p]. *)
Definition gram (f g : wpoint -> R) (pts : list wpoint) : R :=
  lsum (fun p => (sqrtw (snd p) * f p) * (sqrtw (snd p) * g p)) pts.
Definition gram3 (f g : (wpoint -> R) * (wpoint -> R) * (wpoint -> R)) (pts : list wpoint) : mat3 :=
  let '(f1, f2, f3) := f in let '(g1, g2, g3) := g in
  ((gram f1 g1 pts, gram f1 g2 pts, gram f1 g3 pts), (gram f2 g1 pts, gram f2 g2 pts, gram f2 g3 pts),
   (gram f3 g1 pts, gram f3 g2 pts, gram f3 g3 pts)).

(* ------------------------------ circle fit ------------------------------ *)
(** wrms of 1217-1230 (and 933-936, 1103-1107 for the ellipse): NaN (None) if a weight is NaN or the
    quotient is negative. *)
Definition wrms_of (delta : wpoint -> R) (pts : list wpoint) : option R :=
  match osum (map (fun p => match snd p with Some w => Some (delta p * delta p * w) | None => None end) pts),
        osum (map snd pts) with
  | Some num, Some den => if Rle_dec 0 (num / den) then Some (sqrt (num / den)) else None
  | _, _ => None
  end.
(** fit_one_circle: 1163-1233, after the assertions: the normal equations 1186-1230. *)
Definition circle_rows : (wpoint -> R) * (wpoint -> R) * (wpoint -> R) :=
  (fun p => 2 * px p, fun p => 2 * py p, fun _ => 1).
Definition bvec (p : wpoint) : R := px p * px p + py p * py p.
Definition circle_solve (pts : list wpoint) : result (R * R * R * option R) :=
  rbind (inv3 (gram3 circle_rows circle_rows pts)) (fun inv =>
    let '(f1, f2, f3) := circle_rows in
    let '(x0, y0, c) := mv inv (gram f1 bvec pts, gram f2 bvec pts, gram f3 bvec pts) in
    let r2 := c + x0 * x0 + y0 * y0 in
    let r := if Rlt_dec 0 r2 then sqrt r2 else 0 in
    Ok (x0, y0, r, wrms_of (fun p => dist x0 y0 p - r) pts)).
(** The guard 1173-1181 compares the plain sum of the weights with 0 (false for NaN). *)
Definition fit_circle (pts : list wpoint) : result (R * R * R * option R) :=
  match osum (map snd pts) with
  | Some s => if Req_EM_T s 0 then Err RustErr else circle_solve pts
  | None => circle_solve pts
  end.

(* ------------------------------ ellipses ------------------------------ *)
(** ellipse_coefficients_to_parameters: 314-365; the panic is an error.  A zero [den] is not
    rejected by the code (the result would not be finite): an error here. *)
Definition conic_parameters (a b c d f g : R) : result (R * R * R * R * R) :=
  let b := b / 2 in let d := d / 2 in let f := f / 2 in
  let den := b * b - a * c in
  if Rlt_dec 0 den then Err RustErr
  else if Req_EM_T den 0 then Err ZeroDivisionError
  else
    let x0 := (c * d - b * f) / den in
    let y0 := (a * f - b * d) / den in
    let numerator := 2 * (a * f * f + c * d * d + g * b * b - 2 * b * d * f - a * c * g) in
    let fac := sqrt ((a - c) * (a - c) + 4 * b * b) in
    let ap_ := sqrt (numerator / (den * (fac - (a + c)))) in
    let bp_ := sqrt (numerator / (den * (- fac - (a + c)))) in
    let '(ap, bp, wide) := if Rle_dec ap_ bp_ then (bp_, ap_, true) else (ap_, bp_, false) in
    let phi := if Rlt_dec (Rabs b) 1e-12 then (if Rlt_dec a c then 0 else PI / 2)
               else 0.5 * atan2 (2 * b) (a - c) in
    let phi := if Rlt_dec (Rabs c) (Rabs a) then phi + PI / 2 else phi in
    let phi := if wide then phi else phi + PI / 2 in
    Ok (x0, y0, ap, bp, rust_rem phi PI).

(** The first column with 4ac - b^2 > 0: 909-920 and 1070-1081; the expect is an error. *)
Fixpoint choose_column (cols : list vec3) : result vec3 :=
  match cols with
  | [] => Err RustErr
  | (a, b, c) :: r => if Rlt_dec 0 (4 * a * c - b * b) then Ok (a, b, c) else choose_column r
  end.
(** c.inv() of 901-902 and 1062-1063 for c = [[0,0,2],[0,-1,0],[2,0,0]]. *)
Definition c_inv : mat3 := ((0, 0, 1/2), (0, -1, 0), (1/2, 0, 0)).

(** fit_one_ellipse, Steps 1-5: 871-929: the coefficients a, b, c, d, f, g.  [eig m] lists the real
    parts of the eigenvectors of m. *)
Definition d1_rows : (wpoint -> R) * (wpoint -> R) * (wpoint -> R) :=
  (fun p => px p * px p, fun p => px p * py p, fun p => py p * py p).
Definition d2_rows : (wpoint -> R) * (wpoint -> R) * (wpoint -> R) := (fun p => px p, fun p => py p, fun _ => 1).
Definition ellipse_t (pts : list wpoint) : result mat3 :=
  rbind (inv3 (gram3 d2_rows d2_rows pts)) (fun s3_inv =>
    Ok (mscale (-1) (mmul s3_inv (transpose (gram3 d1_rows d2_rows pts))))).
Definition m_tmp (pts : list wpoint) (t : mat3) : mat3 :=
  madd (gram3 d1_rows d1_rows pts) (mmul (gram3 d1_rows d2_rows pts) t).
Definition ellipse_coefficients (eig : mat3 -> list vec3) (pts : list wpoint) : result (vec3 * vec3) :=
  rbind (ellipse_t pts) (fun t =>
  rbind (choose_column (eig (mmul c_inv (m_tmp pts t)))) (fun ak => Ok (ak, mv t ak))).
(** geometric_distances: 451-482.  The names a and b of the coefficients are rebound to the
    semi-axes before the gradient is computed, as in the code. *)
Definition geometric_distance (a b c d e f : R) (p : wpoint) : result R :=
  rbind (conic_parameters a b c d e f) (fun q =>
    let '(x0, y0, a, b, orientation) := q in
    let theta := atan2 (py p - y0) (px p - x0) in
    let alpha := theta - orientation in
    let capf := (a * b) / sqrt ((b * cos alpha) ^ 2 + (a * sin alpha) ^ 2) in
    let capfx := 2 * a * px p + b * py p + d in
    let capfy := b * px p + 2 * c * py p + e in
    let gradnorm := sqrt (capfx * capfx + capfy * capfy) in
    Ok (capf / gradnorm)).
(** fit_one_ellipse: 862-944, without wrms (dropped by fit_one_rim: 176). *)
Definition fit_ellipse (eig : mat3 -> list vec3) (pts : list wpoint) : result (R * R * R * R * R) :=
  rbind (ellipse_coefficients eig pts) (fun q =>
    let '((a, b, c), (d, f, g)) := q in
    rbind (conic_parameters a b c d f g) (fun r =>
      let '(x0, y0, ap, bp, phi) := r in Ok (x0, y0, ap, bp, rust_rem (TAU - phi) TAU))).

(** fit_one_ellipse_fixed_center: 1003-1112: the coefficients, then the parameters. *)
Definition fixed_rows (x0 y0 : R) : (wpoint -> R) * (wpoint -> R) * (wpoint -> R) :=
  (fun p => px p * px p - 2 * x0 * px p, fun p => px p * py p - y0 * px p - x0 * py p,
   fun p => py p * py p - 2 * y0 * py p).
Definition ones : wpoint -> R := fun _ => 1.
Definition fixed_coefficients (eig : mat3 -> list vec3) (pts : list wpoint) (x0 y0 : R) : result (vec3 * vec3) :=
  let rows := fixed_rows x0 y0 in
  let '(f1, f2, f3) := rows in
  let s1 := gram3 rows rows pts in
  let '(s21, s22, s23) := (gram f1 ones pts, gram f2 ones pts, gram f3 ones pts) in
  let s3 := gram ones ones pts in
  if Req_EM_T s3 0 then Err RustErr
  else
    let s3_inv := 1 / s3 in
    let '(t1, t2, t3) := (- s3_inv * s21, - s3_inv * s22, - s3_inv * s23) in
    let mtmp := madd s1 ((s21 * t1, s21 * t2, s21 * t3), (s22 * t1, s22 * t2, s22 * t3), (s23 * t1, s23 * t2, s23 * t3)) in
    rbind (choose_column (eig (mmul c_inv mtmp))) (fun q =>
      let '(a, b, c) := q in
      let g := - s3_inv * (s21 * a + s22 * b + s23 * c) in
      let d := -2 * a * x0 - b * y0 in
      let e := - b * x0 - 2 * c * y0 in
      Ok ((a, b, c), (d, e, g))).

(** radial_distance_to_crater_rim: 236-264, one point; [orientation] in degrees. *)
Definition rim_distance (x y a b orientation x0 y0 : R) : R :=
  let phi := TAU - PI / 2 - orientation * PI / 180 in
  let dx := x - x0 in let dy := y - y0 in
  let r := sqrt (dx * dx + dy * dy) in
  let alpha := atan2 dy dx - phi in
  r - (a * b) / sqrt ((b * cos alpha) ^ 2 + (a * sin alpha) ^ 2).

(** fit_one_rim: 138-197, given the scores of the faces: the fitted centre, axes and
    orientation. *)
Definition fit_one_rim (eig : mat3 -> list vec3) (pts : list wpoint) (x0 y0 : R) (fit_center fit_ell : bool) : result (R * R * R * R * R) :=
  match fit_ell, fit_center with
  | true, true => fit_ellipse eig pts
  | true, false =>
      rbind (fixed_coefficients eig pts x0 y0) (fun q =>
        let '((a, b, c), (d, e, g)) := q in
        rbind (conic_parameters a b c d e g) (fun r =>
          let '(_, _, ap, bp, phi) := r in Ok (x0, y0, ap, bp, rust_rem (TAU - phi) TAU)))
  | false, true => rbind (fit_circle pts) (fun r => let '(x, y, a, _) := r in Ok (x, y, a, a, 0))
  | false, false => rbind (fit_circle_fixed pts x0 y0) (fun r => let '(a, _) := r in Ok (x0, y0, a, a, 0))
  end.
