(** Model of feature lists (src/kml/convenience/feature_list.cc), of extended data values
    (src/kml/convenience/convenience.cc) and of the regionator over a feature list
    (src/kml/regionator). *)
From Verif Require Import Common StrMap Doubles BboxModel.
From Coq Require Import DecimalString.

(** A feature as these functions see it: its identity (the pointer), the centre of its bounds
    if it has any (GetFeatureLatLon, see BboxModel.feature_lat_lon), its score. *)
Record feat := { fid : nat; fpos : option (double * double); fscore : Z }.

(** Inside a box: feature_list.cc 95-97. *)
Definition inside (b : bbox) (f : feat) : bool :=
  match fpos f with Some (lat, lon) => contains b lat lon | None => false end.

(** FeatureList::BboxSplit, feature_list.cc 81-109: features moved out and features left. The
    number returned is the number moved. *)
Fixpoint split_loop (b : bbox) (max : nat) (l : list feat) : list feat * list feat :=
  match l with
  | [] => ([], [])
  | f :: r =>
      if inside b f then
        match max - 1 with
        | 0 => ([f], r)
        | m => let '(o, s) := split_loop b m r in (f :: o, s)
        end
      else let '(o, s) := split_loop b max r in (o, f :: s)
  end.
Definition bbox_split (b : bbox) (max : nat) (l : list feat) : list feat * list feat :=
  split_loop b (match max with 0 => length l | _ => max end) l.

(** FeatureList::RegionSplit, feature_list.cc 111-120; a region is given by its box if any. *)
Definition region_split (b : option bbox) (max : nat) (l : list feat) : list feat * list feat :=
  match b with Some b => bbox_split b max l | None => ([], l) end.

(** FeatureList::Sort, feature_list.cc 124-138: std::list::sort is stable; insertion that is
    stable computes the same list (the theorems show the result is determined). *)
Fixpoint insert (f : feat) (l : list feat) : list feat :=
  match l with
  | [] => [f]
  | g :: r => if (fscore f <? fscore g)%Z then g :: insert f r else f :: l
  end.
Definition sort (l : list feat) : list feat := fold_right insert [] l.

(** FeatureList::ComputeBoundingBox, feature_list.cc 146-157. *)
Definition list_bounds (l : list feat) (b : bbox) : bbox :=
  fold_left (fun b f => match fpos f with Some (lat, lon) => expand_lat_lon b lat lon | None => b end) l b.

(** FeatureList::Save, feature_list.cc 71-79: each feature is added to the container, which
    refuses (Element::SetParent, src/kml/dom/element.cc) those that already have a parent;
    [owned] lists the features with a parent. Returns the count, what the container got and
    the new owned features. *)
Fixpoint save (l : list feat) (owned : list nat) : nat * list feat * list nat :=
  match l with
  | [] => (0, [], owned)
  | f :: r =>
      if existsb (Nat.eqb (fid f)) owned then
        let '(n, got, o) := save r owned in (S n, got, o)
      else let '(n, got, o) := save r (fid f :: owned) in (S n, f :: got, o)
  end.

(** Qid, regionator_qid.h 35-79. *)
Inductive quadrant_t := NW | NE | SW | SE.
Definition quadrant_digit (q : quadrant_t) : ascii :=
  match q with NW => "0" | NE => "1" | SW => "2" | SE => "3" end%char.
Definition qid_root : str := S_"q0".
Definition qid_child (q : str) (d : quadrant_t) : str := q ++ [quadrant_digit d].
Definition qid_depth (q : str) : nat := length q - 1.

(** CreateChildRegion, regionator_util.cc 89-122, for the box; GetCenter is bbox.h 165-171. *)
Definition child_box (b : bbox) (d : quadrant_t) : bbox :=
  let lat := center_lat b in let lon := center_lon b in
  match d with
  | NW => {| north := north b; south := lat; east := lon; west := west b |}
  | NE => {| north := north b; south := lat; east := east b; west := lon |}
  | SW => {| north := lat; south := south b; east := lon; west := west b |}
  | SE => {| north := lat; south := south b; east := east b; west := lon |}
  end.

(** A file handed to SaveKml: the name, the region's id, its box, the names linked to and
    the features in its folder. *)
Record file := { fl_name : str; fl_id : str; fl_box : option bbox; fl_links : list str; fl_feats : list feat }.

(** The state of the regionator and of its handler (feature_list_region_handler.cc 50-71). *)
Record rstate := { remaining : list feat; owned : list nat; fmap : smap (list feat);
                   qmap : smap nat; count : nat; files : list file }.

Section Regionate.
  (** std::ostream << int, and SetRootFilename if it was called. *)
  Variable show : nat -> str.
  Variable root_name : option str.
  (** Features per region: kMaxPer (10), feature_list_region_handler.cc 48, or the max_per given to
      FeatureListRegionator (feature_list_regionator.h), where 0 stands for all. *)
  Variable max_per : nat.
  (** ProgressMonitor::RegionatorProgress (feature_list_regionator.h 74-77) given the number of
      features done and the total; always true without a monitor and for NullProgress. A monitor
      is modelled as a function of the two numbers. *)
  Variable progress : nat -> nat -> bool.
  Variable total : nat.

  (** Regionator::RegionFilename, regionator.cc 67-76; operator[] of the map gives 0 for a
      missing key (the key it inserts is not observable here). *)
  Definition region_filename (q : str) (m : smap nat) : str :=
    match root_name with
    | Some r => if eqs q qid_root then r
                else show (match mget q m with Some n => n | None => 0 end) ++ S_".kml"
    | None => show (match mget q m with Some n => n | None => 0 end) ++ S_".kml"
    end.

  (** Regionator::_Regionate and Recurse, regionator.cc 80-158, with
      HasData and GetFeature of FeatureListRegionHandler, feature_list_region_handler.cc 50-67,
      or FeatureListRegionator, feature_list_regionator.h 68-89. The atom:link and LookAt are not
      modelled; the directory put in front of every name is not. *)
  Fixpoint regionate (fuel : nat) (b : option bbox) (q : str) (s : rstate) : res (bool * rstate) :=
    match fuel with
    | 0 => Fuel
    | S n =>
        let '(out, rest) := region_split b max_per (remaining s) in
        match out with
        | [] => Ok (false, {| remaining := rest; owned := owned s; fmap := fmap s; qmap := qmap s;
                              count := count s; files := files s |})
        | _ =>
            let '(_, folder, own) := save out (owned s) in
            if negb (progress (total - length rest) total) then
              Ok (false, {| remaining := rest; owned := own; fmap := mset q folder (fmap s); qmap := qmap s;
                            count := count s; files := files s |})
            else
            let s := {| remaining := rest; owned := own; fmap := mset q folder (fmap s);
                        qmap := mset q (S (count s)) (qmap s); count := S (count s); files := files s |} in
            let child d := option_map (fun b => child_box b d) b in
            do (h0, s) <- regionate n (child NW) (qid_child q NW) s;
            do (h1, s) <- regionate n (child NE) (qid_child q NE) s;
            do (h2, s) <- regionate n (child SW) (qid_child q SW) s;
            do (h3, s) <- regionate n (child SE) (qid_child q SE) s;
            let kids := (if h0 then [qid_child q NW] else []) ++ (if h1 then [qid_child q NE] else []) ++
                        (if h2 then [qid_child q SW] else []) ++ (if h3 then [qid_child q SE] else []) in
            let links := map (fun k => region_filename k (qmap s)) kids in
            match mget q (fmap s) with
            | None => Ok (false, s)
            | Some folder =>
                Ok (true, {| remaining := remaining s; owned := owned s; fmap := fmap s; qmap := qmap s;
                             count := count s;
                             files := files s ++ [{| fl_name := region_filename q (qmap s); fl_id := q;
                                                     fl_box := b; fl_links := links; fl_feats := folder |}] |})
            end
        end
    end.

  (** Regionator::Regionate, regionator.cc 161-166, on a fresh regionator and handler. *)
  Definition start (l : list feat) (own : list nat) : rstate :=
    {| remaining := l; owned := own; fmap := []; qmap := []; count := 0; files := [] |}.
  Definition regionate_all (fuel : nat) (b : option bbox) (l : list feat) (own : list nat) : res (bool * rstate) :=
    regionate fuel b qid_root (start l own).
  (** Regionator::RegionateAligned, regionator.cc 169-187, CreateAlignedAbstractLatLonBox,
      regionator_util.cc 68-84; [None] is false. *)
  Definition world : bbox := {| north := d180; south := dm180; east := d180; west := dm180 |}.
  Definition regionate_aligned (fuel : nat) (b : bbox) (l : list feat) (own : list nat) : res (option rstate) :=
    if contained_by b world then
      do (_, s) <- regionate_all fuel (Some (align b world 24)) l own; Ok (Some s)
    else Ok None.
  (** FeatureListRegionator::Regionate, feature_list_regionator.h 104-133: the bounds of the list,
      the sorted list, the aligned region. *)
  Definition regionate_list (fuel : nat) (l : list feat) (own : list nat) : res (option rstate) :=
    regionate_aligned fuel (list_bounds l bbox0) (sort l) own.
End Regionate.

(** std::ostream << int for the numbers that occur here: decimal digits. *)
Definition show_nat (n : nat) : str := String.list_ascii_of_string (NilEmpty.string_of_uint (Nat.to_uint n)).

(** CreateLineStringBox, regionator_util.cc 128-149: latitude, longitude of each vertex. *)
Definition line_string_box (b : bbox) : list (double * double) :=
  [(north b, west b); (north b, east b); (south b, east b); (south b, west b); (south b, west b)].

(** Extended data of a feature: absent, or the Data elements with optional name, and value. *)
Definition ext := option (list (option str * str)).
(** GetExtendedDataValue, convenience.cc 239-253. *)
Definition get_ext (e : ext) (name : str) : option str :=
  match e with
  | None => None
  | Some l => option_map snd (List.find (fun d => match fst d with Some n => eqs name n | None => false end) l)
  end.
(** AddExtendedDataValue, convenience.cc 63-72, SetExtendedDataValue, convenience.cc 255-262. *)
Definition add_ext (e : ext) (name value : str) : ext :=
  Some (match e with Some l => l | None => [] end ++ [(Some name, value)]).
Definition set_ext (e : ext) (name value : str) : ext := add_ext (Some []) name value.
