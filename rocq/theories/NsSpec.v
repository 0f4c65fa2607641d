(** Namespaces in XML: what a namespace aware parser reports for a document (the recommendation Namespaces in XML 1.0, which
    expat implements; third-party code, part of the trusted base). *)
From Verif Require Import Common XmlSpec.

(** A document with resolved names: namespace (empty: none) and local name. *)
Inductive nxml :=
| NElem (uri local : str) (atts : list (str * str * str)) (kids : list nxml)
| NChar (c : ascii).
(** Prefix and local part of a qualified name; None: more than one colon, or nothing on one side of it. *)
Definition qname (s : str) : option (option str * str) :=
  match find_char ":"%char s with
  | None => Some (None, s)
  | Some i =>
      let p := firstn i s in let l := skipn (i + 1) s in
      match p, l, find_char ":"%char l with _ :: _, _ :: _, None => Some (Some p, l) | _, _, _ => None end
  end.
Definition xml_uri : str := S_ "http://www.w3.org/XML/1998/namespace".
Definition xmlns_uri : str := S_ "http://www.w3.org/2000/xmlns/".
(** The namespace declared by an attribute: None: the attribute is not a declaration. *)
Definition declares (k : str) : option (option (option str)) :=
  if eqs k (S_ "xmlns") then Some (Some None)
  else if prefixb (S_ "xmlns:") k then match qname k with Some (_, l) => Some (Some (Some l)) | None => Some None end
  else None.
(** Bindings in scope, innermost first; the default namespace has no prefix. *)
Definition scope := list (option str * str).
Definition opt_eqs (a b : option str) : bool := match a, b with Some x, Some y => eqs x y | None, None => true | _, _ => false end.
Fixpoint bound (sc : scope) (p : option str) : option str :=
  match sc with [] => None | (q, u) :: r => if opt_eqs q p then Some u else bound r p end.
(** Declarations the recommendation forbids: an empty namespace for a prefix, the prefix xmlns, other uses of xml and of
    the two reserved namespaces.  expat (since 2.4.5) also rejects a namespace which contains the separator. *)
Definition allowed (p : option str) (u : str) : bool :=
  negb (existsb (aeq "|"%char) u) && negb (eqs u xmlns_uri) &&
  match p with
  | None => negb (eqs u xml_uri)
  | Some p => negb (eqs u []) && negb (eqs p (S_ "xmlns")) && Bool.eqb (eqs p (S_ "xml")) (eqs u xml_uri)
  end.
Fixpoint declarations (l : list (str * str)) : option scope :=
  match l with
  | [] => Some []
  | (k, u) :: r =>
      match declares k with
      | None => declarations r
      | Some None => None
      | Some (Some p) => if allowed p u then option_map (cons (p, u)) (declarations r) else None
      end
  end.
(** The name of an element ([dflt] true) or of an attribute: a name without prefix is in the default namespace or in none. *)
Definition resolve_name (sc : scope) (dflt : bool) (s : str) : option (str * str) :=
  match qname s with
  | None => None
  | Some (None, l) => Some (if dflt then match bound sc None with Some u => u | None => [] end else [], l)
  | Some (Some p, l) => if eqs p (S_ "xml") then Some (xml_uri, l) else option_map (fun u => (u, l)) (bound sc (Some p))
  end.
Fixpoint resolve_atts (sc : scope) (l : list (str * str)) : option (list (str * str * str)) :=
  match l with
  | [] => Some []
  | (k, v) :: r =>
      match declares k with
      | Some _ => resolve_atts sc r
      | None => match resolve_name sc false k, resolve_atts sc r with Some (u, n), Some t => Some ((u, n, v) :: t) | _, _ => None end
      end
  end.
(** No two attributes with the same namespace and local name. *)
Fixpoint distinct_atts (l : list (str * str * str)) : bool :=
  match l with [] => true | (u, n, _) :: r => negb (existsb (fun e => let '(u', n', _) := e in eqs u u' && eqs n n') r) && distinct_atts r end.
Fixpoint ns (sc : scope) (x : xml) : option nxml :=
  match x with
  | XChar c => Some (NChar c)
  | XElem n a ks =>
      match declarations a with
      | None => None
      | Some d =>
          let sc' := d ++ sc in
          match resolve_name sc' true n, resolve_atts sc' a,
                (fix go (l : list xml) : option (list nxml) :=
                   match l with [] => Some [] | k :: r => match ns sc' k, go r with Some k', Some r' => Some (k' :: r') | _, _ => None end end) ks with
          | Some (u, l), Some a', Some ks' => if distinct_atts a' then Some (NElem u l a' ks') else None
          | _, _, _ => None
          end
      end
  end.
(** The document as expat reports it to its handlers, with | between namespace and local name; the declarations are not
    among the attributes. *)
Definition expat_name (u l : str) : str := match u with [] => l | _ => u ++ "|"%char :: l end.
Fixpoint reported (x : nxml) : xml :=
  match x with
  | NElem u l a ks => XElem (expat_name u l) (map (fun e => let '(u, n, v) := e in (expat_name u n, v)) a) (map reported ks)
  | NChar c => XChar c
  end.
