(** The elements that the regionator makes (C49, C105). *)
From Verif Require Import Common Doubles BboxModel BboxProps FeatureListModel StrMap StringsModel ColorModel AttributesModel AttributesProofs XsdTables XsdModel XmlSpec XmlSpecProofs.
From Verif Require Import SerializerModel SerializerProofs CoordModel CoordProofs HandlerModel HandlerSpec HandlerProps.
From Verif Require Import DomTables DomModel DomSpec DomProofs DomProofs2 DomParsed DomVisit DomProps CloneModel CloneProofs CloneProps.
From Verif Require Import MergeModel MergeProofs MergeProps ViewModel ViewProps SplitProofs2 TourModel TourProps NumberModel NumberDomProps RegionLinkModel.
Local Open Scope N_scope.

Lemma sized_put o k v : sized o -> sized (put o k v).
Proof. unfold sized, put. destruct (index_of_key k _ 0) as [i|]; [|auto]. destruct o as [ty ka ea tx vec sl mis unk]. cbn [set_slots oslots oty]. intros H. now rewrite update_length. Qed.
Lemma oty_put o k v : oty (put o k v) = oty o.
Proof. unfold put. destruct (index_of_key k _ 0); [|reflexivity]. now destruct o. Qed.
Lemma oka_put o k v : oka (put o k v) = oka o.
Proof. unfold put. destruct (index_of_key k _ 0); [|reflexivity]. now destruct o. Qed.

(** The two sides of the box that are at its middle for this quadrant. *)
Definition inner_sides (q : quadrant_t) : N * N :=
  match q with NW => (Type_south, Type_east) | NE => (Type_south, Type_west) | SW => (Type_north, Type_east) | SE => (Type_north, Type_west) end.
(** C49. The region of a quadrant, as an element: its box is the quadrant of the box of the region, with the altitudes and whatever else is in it, and its
    Lod is the one of the region; each is there if the region has it, and nothing else is.  A number is a text here: the middle of the box is taken to be read as it is printed. *)
Theorem child_region_correct : forall E rd pr r q,
  (forall b, In b (get r Type_LatLonAltBox) -> rd (pr (center_lat (box_of rd b))) = center_lat (box_of rd b) /\ rd (pr (center_lon (box_of rd b))) = center_lon (box_of rd b)) ->
  (length (get r Type_LatLonAltBox) <= 1)%nat -> (length (get r Type_Lod) <= 1)%nat ->
  (forall b, In b (get r Type_LatLonAltBox) -> good E b /\ oty b = Type_LatLonAltBox) -> (forall l, In l (get r Type_Lod) -> good E l /\ oty l = Type_Lod) ->
  exists c, child_region E rd pr r q = CloneModel.Done c /\ oty c = Type_Region /\ oka c = [] /\ get c Type_Lod = get r Type_Lod /\
    length (get c Type_LatLonAltBox) = length (get r Type_LatLonAltBox) /\
    forall b, In b (get r Type_LatLonAltBox) -> exists b', get c Type_LatLonAltBox = [b'] /\ oty b' = Type_LatLonAltBox /\ oka b' = oka b /\
      box_of rd b' = child_box (box_of rd b) q /\ forall k, k <> fst (inner_sides q) -> k <> snd (inner_sides q) -> get b' k = get b k.
Proof.
  intros E rd pr r q Hrd Hlb Hll Hb Hl. unfold child_region.
  assert (Sets : forall b k x, sized b -> oty b = Type_LatLonAltBox -> In k [Type_north; Type_south; Type_east; Type_west] -> forall j, get (set_number pr b k x) j = if k =? j then [field k (pr x)] else get b j).
  { intros b k x Hs Ht Hk j. unfold set_number. rewrite put_get by exact Hs. rewrite Ht. repeat (destruct Hk as [<-|Hk]; [cbn; now rewrite andb_true_r|]). destruct Hk. }
  assert (Child : forall b, rd (pr (center_lat (box_of rd b))) = center_lat (box_of rd b) -> rd (pr (center_lon (box_of rd b))) = center_lon (box_of rd b) -> sized b -> oty b = Type_LatLonAltBox -> let b' := child_llab pr b (box_of rd b) q in
    oty b' = Type_LatLonAltBox /\ oka b' = oka b /\ box_of rd b' = child_box (box_of rd b) q /\ forall k, k <> fst (inner_sides q) -> k <> snd (inner_sides q) -> get b' k = get b k).
  { intros b Hx Hy Hs Ht. assert (S2 : forall k x, sized (set_number pr b k x)) by (intros; now apply sized_put). assert (T2 : forall k x, oty (set_number pr b k x) = Type_LatLonAltBox) by (intros; unfold set_number; now rewrite oty_put).
    assert (G : forall k1 x1 k2 x2, In k1 [Type_north; Type_south; Type_east; Type_west] -> In k2 [Type_north; Type_south; Type_east; Type_west] -> forall j,
      get (set_number pr (set_number pr b k1 x1) k2 x2) j = if k2 =? j then [field k2 (pr x2)] else if k1 =? j then [field k1 (pr x1)] else get b j).
    { intros k1 x1 k2 x2 I1 I2 j. rewrite Sets by auto. destruct (k2 =? j); [reflexivity|]. now apply Sets. }
    unfold child_llab, child_box. cbv zeta. set (la := center_lat (box_of rd b)) in *. set (lo := center_lon (box_of rd b)) in *. clearbody la lo.
    destruct q; cbn [inner_sides fst snd]; (split; [unfold set_number; now rewrite !oty_put|]); (split; [unfold set_number; now rewrite !oka_put|]); (split;
      [unfold box_of, number; rewrite !G by (cbn; tauto); cbn; rewrite ?Hx, ?Hy; reflexivity
      |intros k K1 K2; rewrite G by (cbn; tauto); apply not_eq_sym, N.eqb_neq in K1; apply not_eq_sym, N.eqb_neq in K2; now rewrite K1, K2]). }
  assert (LodPart : exists ls, (match get r Type_Lod with l :: _ => cbind (clone E l) (fun c => CloneModel.Done [c]) | [] => CloneModel.Done [] end) = CloneModel.Done ls /\ ls = get r Type_Lod).
  { destruct (get r Type_Lod) as [|l [|l' ls]]; [eauto| |cbn in Hll; lia]. destruct (Hl l) as ((Hw & Hc & Hs) & _); [now left|]. rewrite (clone_correct E l Hw Hs Hc). cbn [cbind]. eauto. }
  destruct LodPart as (ls & EL & Els). rewrite EL.
  destruct (get r Type_LatLonAltBox) as [|b [|b1 bs]] eqn:Eb; [| |cbn in Hlb; lia].
  - cbn [cbind app]. eexists. split; [reflexivity|]. destruct ls as [|l ls].
    + rewrite <- Els. repeat (split; [vm_compute; reflexivity|]). intros b [].
    + rewrite <- Els. repeat (split; [vm_compute; reflexivity|]). intros b [].
  - destruct (Hb b) as (Hg & Ht); [now left|]. pose proof Hg as (Hw & Hc & Hs). rewrite (clone_correct E b Hw Hs Hc). cbn [cbind app].
    assert (Hz : sized b) by (unfold sized; now apply (good_length E)). destruct (Hrd b) as [Hx Hy]; [now left|]. destruct (Child b Hx Hy Hz Ht) as (C1 & C2 & C3 & C4). set (b' := child_llab pr b (box_of rd b) q) in *. clearbody b'.
    eexists. split; [reflexivity|]. destruct ls as [|l ls].
    + rewrite <- Els. cbn [app]. repeat (split; [vm_compute; reflexivity|]). intros b0 [<-|[]]. exists b'. split; [vm_compute; reflexivity|]. auto.
    + rewrite <- Els. cbn [app]. repeat (split; [vm_compute; reflexivity|]). intros b0 [<-|[]]. exists b'. split; [vm_compute; reflexivity|]. auto.
Qed.
Print Assumptions child_region_correct.
(** C49, C105. A link to the file of a region, and the document of a region: a region equal to the one given, in an element of its own, and for the link the
    address asked for, to be fetched when the region is in view. *)
Theorem region_link_correct : forall E r href, good E r -> oty r = Type_Region ->
  (exists n l, region_network_link E r href = CloneModel.Done n /\ oty n = Type_NetworkLink /\ parts n = 2%nat /\ get n Type_Region = [r] /\ get n Type_Link = [l] /\
     oty l = Type_Link /\ parts l = 2%nat /\ get l Type_href = [field Type_href href] /\ get l Type_viewRefreshMode = [field Type_viewRefreshMode (S_ "onRegion")]) /\
  (exists d, region_document E r = CloneModel.Done d /\ oty d = Type_Document /\ parts d = 1%nat /\ get d Type_Region = [r]).
Proof.
  intros E r href (Hw & Hc & Hs) Ht. unfold region_network_link, region_document. rewrite (clone_correct E r Hw Hs Hc). cbn [cbind]. split.
  - eexists. eexists. split; [reflexivity|]. repeat split; vm_compute; reflexivity.
  - eexists. split; [reflexivity|]. repeat split; vm_compute; reflexivity.
Qed.
Print Assumptions region_link_correct.
(** A region with altitudes, read from a text, with the numbers of NumberModel.v: the hypotheses, and its south-eastern quadrant. *)
Definition region_text : str := S_ "<Region id=""r""><LatLonAltBox><north>10</north><south>-20</south><east>30.5</east><west>0</west><minAltitude>7</minAltitude></LatLonAltBox><Lod><minLodPixels>128</minLodPixels></Lod></Region>".
Definition sample_region : obj := match read_kml E64 region_text with Ok (Some o) => o | _ => create Type_Region end.
Example child_region_sample :
  (good E64 sample_region /\ oty sample_region = Type_Region) /\
  (forall b, In b (get sample_region Type_LatLonAltBox) -> (good E64 b /\ oty b = Type_LatLonAltBox) /\ read_double (print_double (center_lat (box_of read_double b))) = center_lat (box_of read_double b) /\
     read_double (print_double (center_lon (box_of read_double b))) = center_lon (box_of read_double b)) /\
  (forall l, In l (get sample_region Type_Lod) -> good E64 l /\ oty l = Type_Lod) /\
  match child_region E64 read_double print_double sample_region SE with
  | CloneModel.Done c => write_raw c = Ok (S_ "<Region><LatLonAltBox><north>-5</north><south>-20</south><east>30.5</east><west>15.25</west><minAltitude>7</minAltitude></LatLonAltBox><Lod><minLodPixels>128</minLodPixels></Lod></Region>")
  | _ => False
  end /\
  match region_network_link E64 sample_region (S_ "q01.kml") with
  | CloneModel.Done n => write_raw n = Ok (S_ "<NetworkLink>" ++ region_text ++ S_ "<Link><href>q01.kml</href><viewRefreshMode>onRegion</viewRefreshMode></Link></NetworkLink>")
  | _ => False
  end.
Proof.
  split; [split; [apply goodb_good|]; vm_compute; reflexivity|]. split.
  - intros b Hb. vm_compute in Hb. destruct Hb as [<-|[]]. split; [split; [apply goodb_good|]; vm_compute; reflexivity|]. split; vm_compute; reflexivity.
  - split; [|split; vm_compute; reflexivity]. intros l Hl. vm_compute in Hl. destruct Hl as [<-|[]]. split; [apply goodb_good|]; vm_compute; reflexivity.
Qed.
