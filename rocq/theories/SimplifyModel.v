(** Model of kmlconvenience::SimplifyCoordinates and CreateCoordinatesCircle
    (src/kml/convenience/convenience.cc:117-125, 285-314).  The distance function
    (base/math_util.cc:56-61) is used only through the test tolerance >= distance, which is a
    parameter, as is the function computing a point of a circle. *)
From Verif Require Import Common.

Section Simplify.
Context {P : Type}.
(** merge_tolerance > 0.0 && merge_tolerance >= DistanceBetweenPoints3d(last, this). *)
Variable near : P -> P -> bool.

(** convenience.cc:294-313: the loop for i > 0; last_vec is set to every visited vertex, dropped or
    not. *)
Fixpoint simplify_loop (last_vec : P) (l : list P) : list P :=
  match l with
  | [] => []
  | v :: l' => if near last_vec v then simplify_loop v l' else v :: simplify_loop v l'
  end.
(** convenience.cc:285-314: appended to dest. *)
Definition simplify_coordinates (src dest : list P) : list P :=
  match src with
  | [] => dest
  | v :: l => dest ++ v :: simplify_loop v l
  end.
End Simplify.

Section Circle.
Context {P : Type}.
(** LatLngOnRadialFromPoint(lat, lng, radius, radial): radial in degrees. *)
Variable on_radial : N -> P.
(** convenience.cc:117-125: the radial of vertex i is the number i itself. *)
Definition circle_radials (segments : nat) : list N := map N.of_nat (seq 0 segments).
Definition create_coordinates_circle (segments : nat) : list P := map on_radial (circle_radials segments).
End Circle.
