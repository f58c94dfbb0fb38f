(** The coordinate reference system of a surface and of a region of it: the text given to pyproj and
    how it is kept (components/surface/__init__.py).
    Simplifications: a number is its text as the f-string writes it, the radius with six decimals;
    pyproj's reading of the text is not modelled, so a system is the text it is made from. *)
From Coq Require Import String.
Open Scope string_scope.

(** get_crs, no location: 1892-1908 *)
Definition global_text (name radius : string) : string :=
  "GEOGCS[""GCS_" ++
  name ++
  "_global""," ++
  "    DATUM[""D_" ++
  name ++
  """," ++
  "        ELLIPSOID[""" ++
  name ++
  """," ++
  radius ++
  ",0," ++
  "            LENGTHUNIT[""metre"",1]]]," ++
  "    PRIMEM[""Reference_Meridian"",0," ++
  "        ANGLEUNIT[""degree"",0.0174532925199433]]]," ++
  "    CS[ellipsoidal,2]," ++
  "        AXIS[""geodetic latitude (Lat)"",north," ++
  "            ORDER[1]," ++
  "            ANGLEUNIT[""degree"",0.0174532925199433]]," ++
  "        AXIS[""geodetic longitude (Lon)"",east," ++
  "            ORDER[2]," ++
  "            ANGLEUNIT[""degree"",0.0174532925199433]],REMARK[""Created by Cratermaker""]]".
(** get_crs, a location: 1909-1942 *)
Definition local_text (name radius lon lat : string) : string :=
  "PROJCRS[""Proj_" ++
  name ++
  "_region_location_" ++
  lon ++
  "_" ++
  lat ++
  "_Lambert_Azimuthal_Equal_Area""," ++
  "    BASEGEOGCRS[""GCS_" ++
  name ++
  "_global""," ++
  "        DATUM[""D_" ++
  name ++
  """," ++
  "            ELLIPSOID[""" ++
  name ++
  """," ++
  radius ++
  ",0," ++
  "                LENGTHUNIT[""metre"",1]]]," ++
  "        PRIMEM[""Reference_Meridian"",0," ++
  "            ANGLEUNIT[""degree"",0.0174532925199433]]]," ++
  "        CONVERSION[""Lambert Azimuthal Equal Area""," ++
  "            METHOD[""Lambert Azimuthal Equal Area (Spherical)""," ++
  "                ID[""EPSG"",1027]]," ++
  "            PARAMETER[""Latitude of natural origin""," ++
  lat ++
  "," ++
  "                ANGLEUNIT[""degree"",0.0174532925199433]," ++
  "                ID[""EPSG"",8801]]," ++
  "            PARAMETER[""Longitude of natural origin""," ++
  lon ++
  "," ++
  "                ANGLEUNIT[""degree"",0.0174532925199433]," ++
  "                ID[""EPSG"",8802]]," ++
  "            PARAMETER[""False easting"",0," ++
  "                LENGTHUNIT[""metre"",1]," ++
  "                ID[""EPSG"",8806]]," ++
  "            PARAMETER[""False northing"",0," ++
  "                LENGTHUNIT[""metre"",1]," ++
  "                ID[""EPSG"",8807]]]," ++
  "        CS[Cartesian,2]," ++
  "            AXIS[""(E)"",east," ++
  "                ORDER[1]," ++
  "                LENGTHUNIT[""metre"",1]]," ++
  "            AXIS[""(N)"",north," ++
  "                ORDER[2]," ++
  "                LENGTHUNIT[""metre"",1]]],REMARK[""Created by Cratermaker""]".
(** A target, with its name and the text of its radius. *)
Record body := mk_body { b_name : string; b_radius : string }.
(** get_crs: 1878-1944 *)
Definition get_crs (b : body) (location : option (string * string)) : string :=
  match location with
  | None => global_text (b_name b) (b_radius b)
  | Some (lon, lat) => local_text (b_name b) (b_radius b) lon lat
  end.

(** A surface ([place] None) or a region about a place, which it never moves from: the target, read
    through the surface for a region, and the kept system (108, 2048). *)
Record holder := mk_holder { target : body; place : option (string * string); kept : option string }.
Definition new_holder (b : body) (p : option (string * string)) : holder := mk_holder b p None.
(** crs: 1946-1951 for a surface, 4320-4334 for a region *)
Definition crs (h : holder) : string * holder :=
  match kept h with
  | Some t => (t, h)
  | None => let t := get_crs (target h) (place h) in (t, mk_holder (target h) (place h) (Some t))
  end.
(** Assigning a target (1470-1475): nothing kept is dropped. *)
Definition set_target (h : holder) (b : body) : holder := mk_holder b (place h) (kept h).
