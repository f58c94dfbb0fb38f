(** Model of the projectile components (components/projectile/).
    Simplifications: floats are R; type checks on the arguments are the types of the model; a
    location is normalised by the parameter [normalize] (Coords_model has the function); the
    draws of the random generator are the arguments of type [draws] (Random_model has the
    functions); a target is its name and escape velocity. *)
From Coq Require Import Reals List String Bool.
From Verif Require Import Common.
Import ListNotations.
Open Scope R_scope.

(** The registered populations: asteroids.py:11, comets.py:11, generic.py:10. *)
Inductive population : Type := Asteroids | Comets | Generic.
Record body : Type := mkBody { b_name : string; b_escape : R }.

(** A Projectile object: projectile/__init__.py:97-104. *)
Record projectile : Type := mkProjectile {
  p_pop : population; p_sample : bool; p_mean : option R; p_velocity : option R;
  p_density : option R; p_angle : option R; p_direction : option R; p_location : option (R * R);
  p_target : body }.

(** The keyword arguments of the constructors. *)
Record args : Type := mkArgs {
  a_sample : bool; a_mean : option R; a_velocity : option R; a_density : option R;
  a_angle : option R; a_direction : option R; a_location : option (R * R) }.

(** asteroids.py:13-22 *)
Definition asteroid_table : list (string * R) :=
  [ ("Mercury", 41100); ("Venus", 29100); ("Earth", 24600); ("Moon", 22100); ("Mars", 10700);
    ("Ceres", 5300); ("Vesta", 5300); ("MBA", 5300) ]%string.
(** comets.py:13-69 *)
Definition comet_table : list (string * R) :=
  [ ("Mercury", 18400); ("Venus", 26300); ("Earth", 17670); ("Moon", 17670); ("Mars", 14210);
    ("Metis", 59000); ("Amalthea", 50000); ("Thebe", 45000); ("Io", 32000); ("Europa", 26000);
    ("Ganymede", 20000); ("Callisto", 15000); ("Himalia", 6100); ("Prometheus", 32000);
    ("Pandora", 31000); ("Epimetheus", 30000); ("Janus", 30000); ("Mimas", 27000);
    ("Enceladus", 24000); ("Tethys", 21000); ("Telesto", 21000); ("Calypso", 21000);
    ("Dione", 19000); ("Helene", 19000); ("Rhea", 16000); ("Titan", 10500); ("Hyperion", 9400);
    ("Iapetus", 6100); ("Phoebe", 3200); ("Cordelia", 20000); ("Ophelia", 19000);
    ("Bianca", 18000); ("Cressida", 18000); ("Desdemona", 18000); ("Juliet", 18000);
    ("Portia", 18000); ("Rosalind", 17000); ("Belinda", 16000); ("Puck", 15000);
    ("Miranda", 12500); ("Ariel", 10300); ("Umbriel", 8700); ("Titania", 6800);
    ("Oberon", 5900); ("Naiad", 22000); ("Thalassa", 22000); ("Despina", 21000);
    ("Galatea", 20000); ("Larissa", 18000); ("Proteus", 14000); ("Triton", 8200);
    ("Nereid", 2800); ("Pluto", 1900); ("Charon", 1800); ("KBO", 1800) ]%string.
Fixpoint lookup (k : string) (t : list (string * R)) : option R :=
  match t with
  | [] => None
  | (n, v) :: t' => if (k =? n)%string then Some v else lookup k t'
  end.
(** asteroids.py:89-106 _set_mean_velocity *)
Definition asteroid_mean (b : body) : R :=
  match lookup (b_name b) asteroid_table with Some v => v | None => 22100 end.
(** comets.py:146-163 _set_mean_velocity *)
Definition comet_mean (b : body) : R :=
  match lookup (b_name b) comet_table with Some v => v | None => 1800 end.

Definition is_none {A} (o : option A) : bool := match o with None => true | Some _ => false end.
Definition or_else {A} (o : option A) (x : A) : option A := match o with None => Some x | Some y => Some y end.

(** projectile/__init__.py:49-123 Projectile.__init__ *)
Definition base_init (pop : population) (a : args) (t : body) : result projectile :=
  let p := mkProjectile pop (a_sample a) (a_mean a) (a_velocity a) (a_density a) (a_angle a)
             (a_direction a) (a_location a) t in
  if a_sample a then
    if is_none (a_mean a) then Err ValueError
    else if is_none (a_density a) then Err ValueError else Ok p
  else if is_none (a_velocity a) then Err ValueError
  else if is_none (a_angle a) then Err ValueError
  else if is_none (a_direction a) then Err ValueError
  else if is_none (a_location a) then Err ValueError
  else if is_none (a_density a) then Err ValueError else Ok p.

(** asteroids.py:24-82, comets.py:71-139, generic.py:12-77 the constructors *)
Definition init (pop : population) (a : args) (t : body) : result projectile :=
  match pop with
  | Asteroids => let v := Some (asteroid_mean t) in
      base_init pop (mkArgs (a_sample a) v v (or_else (a_density a) 2250) (a_angle a) (a_direction a) (a_location a)) t
  | Comets => let v := Some (comet_mean t) in
      base_init pop (mkArgs (a_sample a) v v (or_else (a_density a) 500) (a_angle a) (a_direction a) (a_location a)) t
  | Generic =>
      base_init pop (mkArgs (a_sample a) (a_mean a) (a_velocity a) (or_else (a_density a) 1000)
                       (or_else (a_angle a) 90) (or_else (a_direction a) 0) (or_else (a_location a) (0, 0))) t
  end.

(** projectile/__init__.py:137-166 _copy: the constructor of the class is called with the
    attributes that it names; asteroids and comets name neither velocity. *)
Definition copy (p : projectile) : result projectile :=
  init (p_pop p)
    (match p_pop p with
     | Generic => mkArgs (p_sample p) (p_mean p) (p_velocity p) (p_density p) (p_angle p) (p_direction p) (p_location p)
     | _ => mkArgs (p_sample p) None None (p_density p) (p_angle p) (p_direction p) (p_location p)
     end) (p_target p).

Definition with_velocity v p := mkProjectile (p_pop p) (p_sample p) (p_mean p) v (p_density p) (p_angle p) (p_direction p) (p_location p) (p_target p).
Definition with_angle v p := mkProjectile (p_pop p) (p_sample p) (p_mean p) (p_velocity p) (p_density p) v (p_direction p) (p_location p) (p_target p).
Definition with_direction v p := mkProjectile (p_pop p) (p_sample p) (p_mean p) (p_velocity p) (p_density p) (p_angle p) v (p_location p) (p_target p).
Definition with_location v p := mkProjectile (p_pop p) (p_sample p) (p_mean p) (p_velocity p) (p_density p) (p_angle p) (p_direction p) v (p_target p).
Definition with_density v p := mkProjectile (p_pop p) (p_sample p) (p_mean p) (p_velocity p) v (p_angle p) (p_direction p) (p_location p) (p_target p).
(** projectile/__init__.py:480-484 the setter of target *)
Definition set_target t p := mkProjectile (p_pop p) (p_sample p) (p_mean p) (p_velocity p) (p_density p) (p_angle p) (p_direction p) (p_location p) t.

(** The random draws: velocity from the mean and the escape velocity, angle, direction, location. *)
Record draws : Type := mkDraws { d_velocity : R -> R -> R; d_angle : R; d_direction : R; d_location : R * R }.

Section Projectile.
(** general_utils.py:263-345 validate_and_normalize_location *)
Variable normalize : R * R -> result (R * R).

(** projectile/__init__.py:399-463 the setters of angle, direction, velocity and density *)
Definition non_negative (x : R) : result R := if Rlt_dec x 0 then Err ValueError else Ok x.
Definition assign {A B} (check : A -> result B) (arg : option A) (dflt : option B) : result (option B) :=
  match arg with
  | Some x => match check x with Ok y => Ok (Some y) | Err e => Err e end
  | None => Ok dflt
  end.

(** projectile/__init__.py:280-353 new_projectile *)
Definition new_projectile (a : args) (d : draws) (p : projectile) : result projectile :=
  rbind (copy p) (fun q =>
  rbind (assign non_negative (a_velocity a)
           (if p_sample q then match p_mean q with Some m => Some (d_velocity d m (b_escape (p_target q))) | None => None end
            else match p_velocity q with None => p_mean q | Some v => Some v end)) (fun v =>
  rbind (assign non_negative (a_angle a)
           (if p_sample q then Some (d_angle d) else or_else (p_angle q) 90)) (fun an =>
  rbind (assign non_negative (a_direction a)
           (if p_sample q then Some (d_direction d) else or_else (p_direction q) 0)) (fun di =>
  rbind (assign normalize (a_location a)
           (if p_sample q then Some (d_location d) else or_else (p_location q) (0, 0))) (fun lo =>
  rbind (assign non_negative (a_density a) (p_density q)) (fun de =>
  Ok (with_density de (with_location lo (with_direction di (with_angle an (with_velocity v q))))))))))).

(** What the first argument of maker can be. *)
Inductive which : Type := ByDefault | ByName (pop : population) | ByObject (p : projectile).

(** projectile/__init__.py:168-278 maker *)
Definition maker (w : which) (a : args) (t : body) (d : draws) : result projectile :=
  let '(w, a) :=
    match w with
    | ByDefault =>
      if negb (is_none (lookup (b_name t) asteroid_table)) then (ByName Asteroids, a)
      else if negb (is_none (lookup (b_name t) comet_table)) then (ByName Comets, a)
      else (ByName Generic, mkArgs (a_sample a) (or_else (a_mean a) 20000) (a_velocity a) (a_density a)
                              (a_angle a) (a_direction a) (a_location a))
    | w => (w, a)
    end in
  match w with
  | ByName pop => rbind (init pop a t) (new_projectile a d)
  | ByObject p =>
    if is_none (a_velocity a) && is_none (a_angle a) && is_none (a_direction a)
       && is_none (a_location a) && is_none (a_density a)
    then Ok p else new_projectile a d p
  | ByDefault => Err TypeError
  end.

(** projectile/__init__.py:465-468 vertical_velocity *)
Definition vertical_velocity (p : projectile) : option R :=
  match p_velocity p, p_angle p with
  | Some v, Some a => Some (v * sin (a * (PI / 180)))
  | _, _ => None
  end.
End Projectile.

(** scaling/__init__.py:55-61, 106-119, 156-161: Scaling.maker builds its projectile for the
    target, and, when a projectile was asked for, makes it again with no target, for which
    Target.maker takes the Moon.  (The setter of the target, 144-148, leaves the projectile.) *)
Definition scaling_projectile (normalize : R * R -> result (R * R)) (moon : body) (w : which) (t : body)
    (d d' : draws) : result projectile :=
  let a := mkArgs true None None None None None None in
  rbind (maker normalize w a t d) (fun p =>
    match w with
    | ByDefault => Ok p
    | _ => maker normalize w a moon d'
    end).

(** projectile/__init__.py:355-463 the setters of a projectile. *)
Definition set_sample b p := mkProjectile (p_pop p) b (p_mean p) (p_velocity p) (p_density p) (p_angle p) (p_direction p) (p_location p) (p_target p).
Definition with_mean v p := mkProjectile (p_pop p) (p_sample p) v (p_velocity p) (p_density p) (p_angle p) (p_direction p) (p_location p) (p_target p).
Inductive setter : Type :=
  | SetSample (b : bool) | SetMean (v : R) | SetVelocity (v : R) | SetAngle (v : R) | SetDirection (v : R)
  | SetLocation (l : R * R) | SetDensity (v : R) | SetTarget (t : body).
Definition set (normalize : R * R -> result (R * R)) (s : setter) (p : projectile) : result projectile :=
  match s with
  | SetSample b => Ok (set_sample b p)
  | SetMean v => rbind (non_negative v) (fun v => Ok (with_mean (Some v) p))
  | SetVelocity v => rbind (non_negative v) (fun v => Ok (with_velocity (Some v) p))
  | SetAngle v => rbind (non_negative v) (fun v => Ok (with_angle (Some v) p))
  | SetDirection v => rbind (non_negative v) (fun v => Ok (with_direction (Some v) p))
  | SetLocation l => rbind (normalize l) (fun l => Ok (with_location (Some l) p))
  | SetDensity v => rbind (non_negative v) (fun v => Ok (with_density (Some v) p))
  | SetTarget t => Ok (set_target t p)
  end.
