(** The elements made by regionator/regionator_util.cc, on the elements of DomModel.v; a number is given by the text it is printed as, as in TourModel.v. *)
From Verif Require Import Common Doubles BboxModel FeatureListModel StrMap AttributesModel XsdTables XsdModel HandlerModel DomTables DomModel CloneModel ViewModel TourModel.
Local Open Scope N_scope.

Section Region.
  Variable E : env.
  Variable rd : str -> double.
  Variable pr : double -> str.
  (** The getters of an AbstractLatLonBox (abstractlatlonbox.h:41-105, defaults abstractlatlonbox.cc:34-35). *)
  Definition box_of (b : obj) : bbox :=
    {| north := number rd d180 b Type_north; south := number rd dm180 b Type_south; east := number rd d180 b Type_east; west := number rd dm180 b Type_west |}.
  (** set_north and its like. *)
  Definition set_number (b : obj) (k : N) (x : double) : obj := put b k [field k (pr x)].
  (** regionator_util.cc:97-115: the switch over the quadrants, on the copy [c] of the box. *)
  Definition child_llab (c : obj) (b : bbox) (q : quadrant_t) : obj :=
    let lat := center_lat b in let lon := center_lon b in
    match q with
    | NW => set_number (set_number c Type_south lat) Type_east lon
    | NE => set_number (set_number c Type_south lat) Type_west lon
    | SW => set_number (set_number c Type_north lat) Type_east lon
    | SE => set_number (set_number c Type_north lat) Type_west lon
    end.
  (** regionator_util.cc:89-122 CreateChildRegion. *)
  Definition child_region (r : obj) (q : quadrant_t) : cres obj :=
    cbind (match get r Type_LatLonAltBox with
           | b :: _ => cbind (clone E b) (fun c => Done [child_llab c (box_of b) q])
           | [] => Done []
           end)
      (fun bs => cbind (match get r Type_Lod with l :: _ => cbind (clone E l) (fun c => Done [c]) | [] => Done [] end)
         (fun ls => Done (made Type_Region ((match bs with [] => [] | _ => [(Type_LatLonAltBox, bs)] end) ++ (match ls with [] => [] | _ => [(Type_Lod, ls)] end))))).
  (** regionator_util.cc:153-163 CreateRegionNetworkLink and 167-172 CreateRegionDocument, with CloneRegion (63-65). *)
  Definition region_network_link (r : obj) (href : str) : cres obj :=
    cbind (clone E r) (fun c => Done (made Type_NetworkLink [(Type_Region, [c]); (Type_Link, [made Type_Link [val Type_href href; val Type_viewRefreshMode (S_ "onRegion")]])])).
  Definition region_document (r : obj) : cres obj := cbind (clone E r) (fun c => Done (made Type_Document [(Type_Region, [c])])).
End Region.
