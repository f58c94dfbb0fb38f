(** The outlines of several craters together (components/counting/__init__.py) and the polygon of a
    region written to a file (components/surface/__init__.py, lines of the latter unless said
    otherwise).
    Simplifications: the outline of one crater, which may fail, is a parameter (its shape is modelled
    in Outline_model); a file is its name, layer and table; geopandas writes any table it is given. *)
From Coq Require Import List String.
From Verif Require Import Common Conf_model Exports_model.
Import ListNotations.
Open Scope string_scope.

Section Frame.
Variables crater shape number : Type.
(** Crater.to_geoseries with the measured or the initial properties, split or not. *)
Variable outline : bool -> bool -> crater -> result shape.

(** The loop of to_geoseries: counting/__init__.py:948-960 *)
Fixpoint outlines (measured split : bool) (l : list crater) : result (list shape) :=
  match l with
  | [] => Ok []
  | c :: r => rbind (outline measured split c) (fun s => rbind (outlines measured split r) (fun ss => Ok (s :: ss)))
  end.
(** pandas.concat: no objects to concatenate is an error *)
Definition concat_series (l : list shape) : result (list shape) := match l with [] => Err ValueError | _ => Ok l end.
(** Counting.to_geoseries: counting/__init__.py:937-961; [observed] by identifier *)
Definition to_geoseries (observed : list (nat * crater)) (craters : option (list crater)) (measured split : bool) : result (list shape) :=
  let l := match craters with None => map snd observed | Some l => l end in
  rbind (outlines measured split l) concat_series.

(** pandas.DataFrame of a dictionary of lists with an index: each list must be as long as the index *)
Definition data_frame (columns : list (string * list number)) (index : list nat) : result (list (string * list number)) :=
  if forallb (fun c => (List.length (snd c) =? List.length index)%nat) columns then Ok columns else Err ValueError.

(** A region about a place, or a whole surface: 3797 *)
Record region := mk_region { is_local : bool; area : number; local_name : number; boundary : crater }.
Record written := mk_written { w_name : string; w_layer : option string; w_table : list (string * list number); w_shapes : list shape }.
(** export_region_polygon: 3772-3814; the files written *)
Definition export_region_polygon (r : region) (driver : string) : result (list written) :=
  match pget (upper driver) extensions with
  | None => Err ValueError
  | Some ext =>
      if is_local r then
        rbind (outline false false (boundary r)) (fun s =>
        rbind (data_frame [("area", [area r]); ("area_name", [local_name r])] [0; 1]) (fun df =>
        Ok [mk_written ("local_surface_AREA." ++ ext) (if ext =? "shp" then None else Some "local_surface_AREA") df [s]]))
      else Ok []
  end.
End Frame.
