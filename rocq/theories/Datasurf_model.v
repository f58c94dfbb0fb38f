(** Model of cratermaker/components/surface/datasurface.py: the elevations of a surface made from
    elevation files.  Lines are those of datasurface.py unless another file is named.
    Simplifications: a number read from a file is a real, an infinity or NaN, and is only rounded
    when it overflows; the files, their coordinate systems and the interpolation are arguments;
    the prompt of a reset is answered with yes; the local region is an argument, and the
    variables is_local_face and is_local_node (hireslocal.py:712-734) are left out. *)
From Coq Require Import Reals List Arith Bool ZArith.
From Verif Require Exports_model Dem_model.
From Verif Require Import Common RSum Region_model.
Import ListNotations.
Open Scope R_scope.

(* ------------------------------ numbers from files ------------------------------ *)
(** A float32; [Inf true] is minus infinity. *)
Inductive fl := Fin (x : R) | Inf (neg : bool) | NaN.
(** np.finfo(np.float32).max; _NODATA of 198 is its opposite. *)
Definition fmax : R := (2 - / 2 ^ 23) * 2 ^ 127.
(** x * scale in float32, for a positive scale. *)
Definition scaled (scale : R) (v : fl) : fl :=
  match v with
  | Fin x => if Rlt_dec fmax (Rabs (x * scale)) then Inf (if Rlt_dec x 0 then true else false) else Fin (x * scale)
  | _ => v
  end.
(** a != b *)
Definition differs (a b : fl) : bool :=
  match a, b with
  | Fin x, Fin y => if Req_EM_T x y then false else true
  | Inf p, Inf q => negb (Bool.eqb p q)
  | _, _ => true
  end.
Definition is_nan (v : fl) : bool := match v with NaN => true | _ => false end.
Definition is_finite (v : fl) : bool := match v with Fin _ => true | _ => false end.
(** np.mean: NaN for no numbers, and for infinities of both signs. *)
Definition finite_part (l : list fl) : list R := flat_map (fun v => match v with Fin x => [x] | _ => [] end) l.
Definition mean (l : list fl) : fl :=
  let has b := existsb (fun v => match v with Inf c => Bool.eqb b c | _ => false end) l in
  match l with
  | [] => NaN
  | _ => if existsb is_nan l then NaN
         else if has true then (if has false then NaN else Inf true)
         else if has false then Inf false
         else Fin (lsum (fun x => x) (finite_part l) / INR (List.length l))
  end.

(* ------------------------------ units ------------------------------ *)
Fixpoint prefix (p s : string) : bool :=
  match p, s with
  | EmptyString, _ => true
  | String a p, String b s => Ascii.eqb a b && prefix p s
  | _, _ => false
  end.
(** p in s *)
Fixpoint contains (p s : string) : bool :=
  prefix p s || match s with EmptyString => false | String _ r => contains p r end.
(** "KILOMETER" in src.units, which is a tuple: 261-264. *)
Definition local_scale (units : list string) : R := if existsb (String.eqb "KILOMETER") units then 1000 else 1.
(** The first unit in capital letters: 487-491. *)
Definition global_scale (units : list string) : R :=
  if contains "KILOMETER" (Exports_model.upper (match units with [] => EmptyString | u :: _ => u end)) then 1000 else 1.

(* ------------------------------ the local elevations ------------------------------ *)
(** The value that marks pixels without data: 217-219. *)
Definition local_nodata (nodata : option fl) : fl :=
  match nodata with
  | Some (Fin x) => if Rlt_dec (Rabs x) fmax then Fin (- fmax) else Fin x
  | Some (Inf b) => Inf b
  | _ => Fin (- fmax)
  end.
(** The merged pixels: 235-240; None where no file has data. *)
Definition mosaic (nodata : fl) (pixels : list (option R)) : list fl :=
  map (fun o => match o with None => nodata | Some x => Fin x end) pixels.
(** The elevations of the pixels: 261-267 and 280-284. *)
Definition local_elevations (nodata : option fl) (units : list string) (pixels : list (option R)) : list fl :=
  let nd := local_nodata nodata in
  let e := map (scaled (local_scale units)) (mosaic nd pixels) in
  let good v := differs v nd && negb (is_nan v) in
  map (fun v => if good v then v else mean (filter good e)) e.

(* ------------------------------ the elevations outside ------------------------------ *)
(** _sample: 495-518. *)
Definition global_samples (nodata : option fl) (units : list string) (raw : list fl) : list R :=
  let s := map (scaled (global_scale units)) raw in
  let good v := match nodata with None | Some NaN => is_finite v | Some n => is_finite v && differs v n end in
  let kept := finite_part (filter good s) in
  let m := match kept with [] => 0 | _ => lsum (fun x => x) kept / INR (List.length kept) end in
  map (fun v => if good v then match v with Fin x => x | _ => 0 end else m) s.

(** An elevation file of the whole body, with its values at the faces and nodes of the mesh. *)
Record globe := mkGlobe { g_crs : bool; g_units : list string; g_nodata : option fl; g_face : nat -> fl; g_node : nat -> fl }.

(** sorted(set(range(n)) - set(indices)): 469-470 *)
Definition exterior (n : nat) (idx : list nat) : list nat := filter (fun i => negb (existsb (Nat.eqb i) idx)) (seq 0 n).

(* ------------------------------ the choice of files ------------------------------ *)
(** superdomain_dem_file.setter: 583-597, for a given value None. *)
Definition global_file (target_radius scale_factor pix : R) : result Dem_model.file :=
  let min_global_pix := PI / 180 * target_radius / 128 in
  let sdpix := scale_factor * pix / 10 in
  let sdpix := if Rlt_dec sdpix min_global_pix then min_global_pix else sdpix in
  rbind (Dem_model.dem_file_list sdpix (-90, 90) (-180, 180)) (fun p => match fst p with [] => Err IndexError | f :: _ => Ok f end).

(** What may be given for the files of the local region. *)
Inductive given := Text (s : string) | APath (s : string) | AList (items : list (option string)) | Other.
(** The characters of a text, as texts. *)
Fixpoint characters (s : string) : list string := match s with EmptyString => [] | String c r => String c EmptyString :: characters r end.
Fixpoint all_some {A} (l : list (option A)) : option (list A) :=
  match l with [] => Some [] | None :: _ => None | Some x :: r => option_map (cons x) (all_some r) end.
Fixpoint rmap {A B} (f : A -> result B) (l : list A) : result (list B) :=
  match l with [] => Ok [] | x :: r => rbind (f x) (fun y => rbind (rmap f r) (fun ys => Ok (y :: ys))) end.
(** dem_file_list.setter: 549-574, for a value that is not None; an item is None if it is neither a text nor a path.
    [res f] is the pixel size of the file f, or the exception of opening it.  The result is the pixel size. *)
Definition set_files (res : string -> result R) (v : given) : result R :=
  rbind (match v with
         | AList items => match all_some items with Some l => Ok l | None => Err ValueError end
         | Text s => Ok (characters s)
         | APath _ => Err TypeError
         | Other => Err TypeError
         end) (fun l =>
  rbind (rmap res l) (fun pix => match pix with [] => Err ValueError | x :: r => Ok (Region_model.rmin x r) end)).

(* ------------------------------ the surface ------------------------------ *)
Section Surface.
Variables (m : mesh) (areas : list R) (v : view).
(** Elevations of the local files at the faces and at the nodes: lut2 of 441-443. *)
Variable dem : (nat -> R) * (nat -> R).
(** The file chosen when none is set (global_file above). *)
Variable lola : string.

(** _uxds, _local_dem_data, _global_dem_data is not None, ask_overwrite, the file dem_data.nc, _superdomain_dem_file *)
Record state := mkState {
  st_data : dataset; st_dem : option ((nat -> R) * (nat -> R)); st_cache : bool; st_ask : bool;
  st_file : option (list R * list R); st_super : option string }.
Definition with_data d s := mkState d (st_dem s) (st_cache s) (st_ask s) (st_file s) (st_super s).
Definition with_dem d s := mkState (st_data s) d (st_cache s) (st_ask s) (st_file s) (st_super s).
Definition with_cache c s := mkState (st_data s) (st_dem s) c (st_ask s) (st_file s) (st_super s).
Definition with_ask a s := mkState (st_data s) (st_dem s) (st_cache s) a (st_file s) (st_super s).
Definition with_file f s := mkState (st_data s) (st_dem s) (st_cache s) (st_ask s) f (st_super s).
Definition with_super f s := mkState (st_data s) (st_dem s) (st_cache s) (st_ask s) (st_file s) f.

(** The whole surface: surface/__init__.py:1227-1230. *)
Definition full : view := mkView (seq 0 (m_nface m)) (seq 0 (m_nnode m)) (seq 0 (m_nedge m)) 0.
(** The data after Surface.reset: surface/__init__.py:220-247. *)
Definition zeros : dataset := fun n =>
  if String.eqb n "face_elevation" then Some (repeat 0 (m_nface m))
  else if String.eqb n "node_elevation" then Some (repeat 0 (m_nnode m)) else None.

(** State and outcome. *)
Definition then_ (r : state * result unit) (f : state -> state * result unit) : state * result unit :=
  match r with (s, Ok tt) => f s | (s, Err e) => (s, Err e) end.
Definition update (w : view) (l : list R) (s : state) : state * result unit :=
  let '(d, r) := update_elevation m areas w (st_data s) l false in (with_data d s, r).

(** _add_local_dem_elevation: 431-447. *)
Definition add_local (s : state) : state * result unit :=
  match st_dem s with
  | None => (s, Err ValueError)
  | Some (face, node) =>
      then_ (update v (map face (v_faces v) ++ map node (v_nodes v))%list s) (fun s => (with_dem None s, Ok tt))
  end.

(** self.save(filename=...): 535, with surface/__init__.py:3252-3310 and 1264-1272, where merging with
    an existing file of other sizes fails. *)
Definition save_dem (s : state) : state * result unit :=
  match st_data s "face_elevation"%string, st_data s "node_elevation"%string with
  | Some f, Some n =>
      match st_file s with
      | Some (f0, n0) => if Nat.eqb (List.length f0) (List.length f) && Nat.eqb (List.length n0) (List.length n)
                         then (with_file (Some (f, n)) s, Ok tt) else (s, Err ValueError)
      | None => (with_file (Some (f, n)) s, Ok tt)
      end
  | _, _ => (s, Err KeyError)
  end.

(** _add_global_dem_elevation: 449-538.  [world name] is the file, None if it cannot be opened. *)
Definition add_global (world : string -> option globe) (s : state) : state * result unit :=
  let ask := st_ask s in
  if st_cache s then (s, Err UnboundLocalError)
  else
    let s := match st_super s with None => with_super (Some lola) s | Some _ => s end in
    let s := with_cache true (with_ask false s) in
    let faces := exterior (m_nface m) (v_faces v) in
    let nodes := exterior (m_nnode m) (v_nodes v) in
    match (match st_super s with None => None | Some f => world f end) with
    | None => (s, Err RuntimeError)
    | Some g =>
        if g_crs g then
          let fs := global_samples (g_nodata g) (g_units g) (map (g_face g) faces) in
          let ns := global_samples (g_nodata g) (g_units g) (map (g_node g) nodes) in
          match assign (repeat 0 (m_nface m)) faces fs, assign (repeat 0 (m_nnode m)) nodes ns with
          | Ok F, Ok N =>
              then_ (update full (F ++ N)%list s) (fun s =>
              then_ (save_dem s) (fun s => (with_ask ask (with_cache false s), Ok tt)))
          | Err e, _ | _, Err e => (s, Err e)
          end
        else (s, Err ValueError)
    end.

(** reset: 376-395, after Surface.reset. *)
Definition reset (world : string -> option globe) (s : state) : state * result unit :=
  let s := with_data zeros s in
  match st_dem s with
  | Some _ => then_ (add_local s) (add_global world)
  | None => match st_file s with
            | Some (f, n) => update full (f ++ n)%list s
            | None => (s, Ok tt)
            end
  end.

(** _regrid_if_needed: 397-429.  [loaded] is the size of the grid in memory, [same] whether the grid
    file is that of the parameters (surface/__init__.py:1197-1225). *)
Definition regrid_needed (force same : bool) (loaded : option (nat * nat)) (s : state) : bool :=
  let force := force ||
    match st_dem s, st_file s, loaded with
    | Some _, _, _ => false
    | None, None, _ => true
    | None, Some (f, n), Some (nf, nn) => negb (Nat.eqb (List.length f) nf) || negb (Nat.eqb (List.length n) nn)
    | None, Some _, None => false
    end in
  force || negb same.

(** HiResLocalSurface._load_from_files (hireslocal.py:650-676) and Surface._load_from_files
    (surface/__init__.py:1076-1110); [saved] is the data that is read when there is no reset. *)
Definition load (world : string -> option globe) (force same again : bool) (loaded : option (nat * nat)) (saved : dataset) (s : state) : state * result unit :=
  let regrid := regrid_needed force same loaded s in
  let s := if regrid then with_dem (Some dem) s else s in
  let ask := st_ask s in
  let first := if again || regrid
               then then_ (reset world (if regrid then with_ask false s else s)) (fun s => (with_ask ask s, Ok tt))
               else (with_data saved s, Ok tt) in
  if again then then_ first (reset world) else first.

(** __init__: 68-137, after the checks, with a directory that holds [file].  [user] is the argument superdomain_dem_file. *)
Definition construct (world : string -> option globe) (force same again ask : bool) (saved : dataset) (user : option string) (file : option (list R * list R)) : state * result unit :=
  let s := mkState (fun _ => None) None false false file None in
  then_ (load world force same again None saved s) (fun s => (with_ask ask (with_super user s), Ok tt)).
(** __init__ with superdomain_scale_factor=None: nothing is loaded until set_superdomain calls [load]
    (hireslocal.py:78-85 and 493). *)
Definition deferred (ask : bool) (user : option string) (file : option (list R * list R)) : state :=
  mkState (fun _ => None) None false ask file user.
End Surface.
