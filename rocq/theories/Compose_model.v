(** Model of the data composer, cratermaker/components/surface/__init__.py:4575-4735 (class
    DataComposer).
    Simplifications: coordinate transforms, the raster and its window are one function from a
    location to the pixel there; the reads are exact; f64 and f32 are idealised as R; messages and
    progress bars are left out. *)
From Coq Require Import Reals String.
From Verif Require Import Common.
Open Scope R_scope.

(** Python's [%] on floats with a positive modulus. *)
Definition py_mod (x m : R) : R := x - m * IZR (Int_part (x / m)).
Definition deg2rad (x : R) : R := x * (PI / 180).

(** A location (longitude, latitude) in degrees. *)
Definition point := (R * R)%type.

(** An open dataset.  [ra_inside] is the mask of 4677-4682, [ra_value] the pixel value unless it is
    not finite or marks missing data (4697), [ra_centre] the location of the centre of the
    pixel (4699). *)
Record raster := mk_raster {
  ra_handle : nat; ra_units : list string;
  ra_inside : point -> bool; ra_value : point -> option R; ra_centre : point -> point }.

(** What add_data is given: an open dataset or a file name. *)
Inductive item := Reader (r : raster) | Path (name : string).

(** The composer, the elevations of the faces followed by those of the nodes, and what happened to
    datasets: the handles passed to add_data or opened by it, and the handles closed. *)
Record composer := mk_c {
  c_list : list raster; c_finished : bool; c_elev : list R; c_added : list nat; c_closed : list nat }.

Section Composer.
(** Locations of the faces and nodes, and whether the surface is a local one. *)
Variable pts : list point.
Variable is_local : bool.
(** rasterio.open: the dataset, or None when it raises. *)
Variable open : string -> option raster.

(** 4582-4588 *)
Definition fresh (elev : list R) : composer := mk_c [] false elev [] [].

(** 4609-4613: the loop of add_data.  It replaces the names in the list it is given by datasets, and
    stops when one cannot be opened.  The list is returned with the state and the error. *)
Fixpoint add_items (l : list item) (c : composer) : list item * (composer * option exn) :=
  match l with
  | [] => ([], (c, None))
  | it :: rest =>
      match (match it with Reader r => Some r | Path name => open name end) with
      | None => (l, (c, Some RuntimeError))
      | Some r =>
          let c' := mk_c (c_list c ++ [r])%list (c_finished c) (c_elev c) (c_added c ++ [ra_handle r])%list (c_closed c) in
          let '(rest', out) := add_items rest c' in (Reader r :: rest', out)
      end
  end.
(** 4589-4613 add_data on a list. *)
Definition add_data (l : list item) (c : composer) : list item * (composer * option exn) :=
  if c_finished c then (l, (c, Some ValueError)) else add_items l c.

(** 4615-4622 cancel *)
Definition cancel (c : composer) : composer :=
  mk_c [] true (c_elev c) (c_added c) (c_closed c ++ map ra_handle (c_list c))%list.

(** 4631-4639 _orderable_distance: the first longitude stays in degrees. *)
Definition orderable_distance (p q : point) : R :=
  let lon1 := fst p in
  let lat1 := deg2rad (snd p) in
  let lon2 := deg2rad (fst q) in
  let lat2 := deg2rad (snd q) in
  let dlon := py_mod (lon2 - lon1 + PI) (2 * PI) in
  let dlat := lat2 - lat1 in
  sin (dlat / 2) ^ 2 + cos lat1 * cos lat2 * sin (dlon / 2) ^ 2.

(** 4670-4700: the distance of a point from the pixel of a dataset; None is infinity. *)
Definition pix_dist (r : raster) (p : point) : option R :=
  if ra_inside r p then
    match ra_value r p with Some _ => Some (orderable_distance p (ra_centre r p)) | None => None end
  else None.

(** 4702-4703: numpy.argmin over the datasets, the first of the smallest, with its distance. *)
Fixpoint nearest (l : list raster) (p : point) : option (raster * R) :=
  match l with
  | [] => None
  | r :: rest =>
      match pix_dist r p, nearest rest p with
      | None, b => b
      | Some d, None => Some (r, d)
      | Some d, Some (r', d') => if Rlt_dec d' d then Some (r', d') else Some (r, d)
      end
  end.

(** 4711-4714: whether the tuple of units contains the word. *)
Definition scale_factor (r : raster) : R :=
  if existsb (String.eqb "KILOMETER") (ra_units r) then 1000 else 1.

(** 4704-4718: the elevation of a point, zero without data. *)
Definition composed (l : list raster) (p : point) : R :=
  match nearest l p with
  | None => 0
  | Some (r, _) => match ra_value r p with Some v => v * scale_factor r | None => 0 end
  end.

(** 4624-4724 finish.  Two calls raise a ValueError: numpy.min of no rows when a dataset does not
    meet a local surface (4684-4685), and numpy.argmin over no datasets (4702).  Otherwise the
    datasets are closed and update_elevation adds the elevations. *)
Definition misses (r : raster) : bool := negb (existsb (ra_inside r) pts).
Definition finish (c : composer) : composer * option exn :=
  if c_finished c then (c, Some ValueError)
  else if is_local && existsb misses (c_list c) then (c, Some ValueError)
  else if (match c_list c with [] => true | _ => false end) then (c, Some ValueError)
  else (mk_c [] true (map (fun q => fst q + composed (c_list c) (snd q)) (combine (c_elev c) pts))
          (c_added c) (c_closed c ++ map ra_handle (c_list c))%list, None).

(** What a program does with the composer; [Fail] is an exception of its own. *)
Inductive op := Add (l : list item) | Cancel | Finish | Fail (e : exn).
Definition step (o : op) (c : composer) : composer * option exn :=
  match o with
  | Add l => snd (add_data l c)
  | Cancel => (cancel c, None)
  | Finish => finish c
  | Fail e => (c, Some e)
  end.
(** A program stops at the first exception. *)
Fixpoint body (l : list op) (c : composer) : composer * option exn :=
  match l with
  | [] => (c, None)
  | o :: rest => let (c', e) := step o c in match e with None => body rest c' | Some _ => (c', e) end
  end.

(** 4729-4735: __exit__, and the with statement around a program: its exception goes on unless
    __exit__ raises another. *)
Definition leave (raised : option exn) (c : composer) : composer * option exn :=
  if c_finished c then (c, None)
  else match raised with None => finish c | Some _ => (cancel c, None) end.
Definition with_block (l : list op) (c : composer) : composer * option exn :=
  let (c1, e) := body l c in
  let (c2, e') := leave e c1 in
  (c2, match e' with Some x => Some x | None => e end).
End Composer.
