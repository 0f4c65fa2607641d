(** Model of kmlconvenience::GpxTrkPtHandler (src/kml/convenience/gpx_trk_pt_handler.h:50-122), run on
    the events of a document.  Numbers are the texts given to FromString<double>
    (CoordModel.from_string_double); using a number which was never written is [UB]. *)
From Verif Require Import Common StrMap AttributesModel XmlSpec CoordModel.

(** The Vec3 of a point: longitude, latitude, altitude if set (base/vec3.h). *)
Record gpoint := { p_lon : str; p_lat : str; p_alt : option str }.
(** gpx_trk_pt_handler.h:117-121 the members; [g_out] are the calls of HandlePoint so far. *)
Record gpx := { g_vec : option gpoint; g_time : str; g_gather : bool; g_text : str; g_out : list (gpoint * str) }.
Definition gpx_start_state : gpx := {| g_vec := None; g_time := []; g_gather := false; g_text := []; g_out := [] |}.

(** Attributes::Create (base/attributes.cc:44-51,63-72) of the reported pairs. *)
Definition gattrs (l : list (str * str)) : attrs := fold_left (fun m kv => mset (fst kv) (snd kv) m) l [].
(** gpx_trk_pt_handler.h:62-86 StartElement. *)
Definition gpx_start (g : gpx) (n : str) (a : list (str * str)) : res gpx :=
  if eqs n (S_ "trkpt") then
    match mget (S_ "lat") (gattrs a), mget (S_ "lon") (gattrs a) with
    | Some lat, Some lon =>
        match from_string_double lat, from_string_double lon with
        | Some la, Some lo =>
            Ok {| g_vec := Some {| p_lon := lo; p_lat := la; p_alt := None |}; g_time := [];
                  g_gather := g_gather g; g_text := g_text g; g_out := g_out g |}
        | _, _ => UB
        end
    | _, _ => Ok {| g_vec := g_vec g; g_time := []; g_gather := g_gather g; g_text := g_text g; g_out := g_out g |}
    end
  else if eqs n (S_ "time") || eqs n (S_ "ele") then
    Ok {| g_vec := g_vec g; g_time := g_time g; g_gather := true; g_text := []; g_out := g_out g |}
  else Ok g.
(** gpx_trk_pt_handler.h:89-107 EndElement. *)
Definition gpx_end (g : gpx) (n : str) : res gpx :=
  if eqs n (S_ "trkpt") then
    Ok {| g_vec := g_vec g; g_time := g_time g; g_gather := g_gather g; g_text := g_text g;
          g_out := match g_vec g with Some v => g_out g ++ [(v, g_time g)] | None => g_out g end |}
  else if eqs n (S_ "time") then
    Ok {| g_vec := g_vec g; g_time := g_text g; g_gather := g_gather g; g_text := g_text g; g_out := g_out g |}
  else if eqs n (S_ "ele") then
    match g_vec g with
    | None => Ok g
    | Some v =>
        match from_string_double (g_text g) with
        | None => UB
        | Some alt => Ok {| g_vec := Some {| p_lon := p_lon v; p_lat := p_lat v; p_alt := Some alt |}; g_time := g_time g;
                            g_gather := g_gather g; g_text := g_text g; g_out := g_out g |}
        end
    end
  else Ok g.
(** gpx_trk_pt_handler.h:110-114 CharData. *)
Definition gpx_char (g : gpx) (c : ascii) : gpx :=
  if g_gather g then {| g_vec := g_vec g; g_time := g_time g; g_gather := true; g_text := g_text g ++ [c]; g_out := g_out g |} else g.
Fixpoint gpx_run (g : gpx) (l : list ev) : res gpx :=
  match l with
  | [] => Ok g
  | EStart n a :: r => do g1 <- gpx_start g n a; gpx_run g1 r
  | EEnd n :: r => do g1 <- gpx_end g n; gpx_run g1 r
  | EChar c :: r => gpx_run (gpx_char g c) r
  end.
(** The points a handler is given for a document. *)
Definition gpx_points (l : list ev) : res (list (gpoint * str)) := do g <- gpx_run gpx_start_state l; Ok (g_out g).
