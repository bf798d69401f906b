(** XML nodes of the metadata: path specifiers, reading and editing nodes (XmlNodeWrapper.h, CziMetadataBuilder.cpp l.20-436),
    and values as numbers (CziMetadata.cpp l.100-271).
    A document is its root element; a node is addressed by its position, the list of indices of children leading to it
    (pugixml's pointers in the code).  pugixml is modelled by the few functions used here, on trees.  Simplifications: strings
    are lists of code points without NUL (conversions from and to UTF-8 are not modelled), comments and processing
    instructions do not occur (the parse option parse_default drops them), an empty text is the same as an absent string
    (as in pugixml's set_value), std::regex does not run out of stack, allocation does not fail.  A node handle of a removed
    node (dangling in the code) is not modelled. *)
From Coq Require Import String.
From Verif Require Import Base TextModel.
Open Scope Z_scope.

Inductive xml :=
| Elem (name : str) (attrs : list (str * str)) (kids : list xml)
| Text (s : str)
| CData (s : str).

Definition is_elem (n : xml) : bool := match n with Elem _ _ _ => true | _ => false end.
Definition is_text (n : xml) : bool := match n with Text _ => true | _ => false end.
Definition kids_of (n : xml) : list xml := match n with Elem _ _ ks => ks | _ => [] end.

(** index of the first element of a list satisfying [p] (pugi find_child, find_attribute) *)
Fixpoint find_index {A} (p : A -> bool) (l : list A) : option nat :=
  match l with
  | [] => None
  | a :: l' => if p a then Some O else match find_index p l' with Some i => Some (S i) | None => None end
  end.

(** first attribute of a name: TryGetAttribute, XmlNodeWrapper.h l.266-284 *)
Fixpoint attr_of (ats : list (str * str)) (k : str) : option str :=
  match ats with
  | [] => None
  | (k', v) :: ats' => if str_eqb k' k then Some v else attr_of ats' k
  end.

(** Utilities::Tokenize, utilities.cpp l.157-171: tokens may be empty *)
Fixpoint tokens_at (delim : Z -> bool) (s cur : str) : list str :=
  match s with
  | [] => [cur]
  | c :: s' => if delim c then cur :: tokens_at delim s' [] else tokens_at delim s' (cur ++ [c])
  end.
Definition tokens (delim : Z -> bool) (s : str) : list str := tokens_at delim s [].

(** the regular expression name[specifier] of XmlNodeWrapper.h l.42 and CziMetadataBuilder.cpp l.324: the name has no
    brackets and is not empty, the specifier has no brackets *)
Definition no_bracket (c : Z) : bool := negb ((c =? 91) || (c =? 93)).
Definition parse_step (tok : str) : option (str * option str) :=
  let '(name, r) := span no_bracket tok in
  match name with
  | [] => None
  | _ =>
    match r with
    | [] => Some (name, None)
    | c :: r' => if c =? 91 then let '(sp, r'') := span no_bracket r' in
                                 match r'' with [e] => if e =? 93 then Some (name, Some sp) else None | _ => None end
                 else None
    end
  end.

(** std::map insert: sorted by key, the first value of a key stays *)
Fixpoint str_ltb (a b : str) : bool :=
  match a, b with
  | _, [] => false
  | [], _ :: _ => true
  | x :: a', y :: b' => if x <? y then true else if y <? x then false else str_ltb a' b'
  end.
Fixpoint map_insert (m : list (str * str)) (k v : str) : list (str * str) :=
  match m with
  | [] => [(k, v)]
  | (k', v') :: m' => if str_eqb k k' then m else if str_ltb k k' then (k, v) :: m else (k', v') :: map_insert m' k v
  end.

(** ParseAttributes, XmlNodeWrapper.h l.72-102 *)
Definition parse_pair (s : str) : option (str * str) :=
  let '(k, r) := span (fun c => negb (c =? 61)) s in
  match k, r with
  | _ :: _, _ :: v => Some (k, v)
  | _, _ => None
  end.
Fixpoint parse_pairs (l : list str) (m : list (str * str)) : res (list (str * str)) :=
  match l with
  | [] => Ok m
  | s :: l' => match parse_pair s with Some (k, v) => parse_pairs l' (map_insert m k v) | None => Throw end
  end.
Definition parse_attributes (s : str) : res (list (str * str)) :=
  parse_pairs (tokens (fun c => (c =? 44) || (c =? 59)) s) [].

(** find_element_node and find_element_node_and_attributes, XmlNodeWrapper.h l.166-228 *)
Definition matches (name : str) (ats : list (str * str)) (n : xml) : bool :=
  match n with
  | Elem nm at_ _ => str_eqb nm name &&
      forallb (fun '(k, v) => match attr_of at_ k with Some w => str_eqb w v | None => false end) ats
  | _ => false
  end.

(** GetChildElementNodeWithIndex, l.141-162 *)
Fixpoint find_nth (p : xml -> bool) (i : Z) (l : list xml) : option nat :=
  match l with
  | [] => None
  | a :: l' =>
    if p a then if i =? 0 then Some O else match find_nth p (i - 1) l' with Some j => Some (S j) | None => None end
    else match find_nth p i l' with Some j => Some (S j) | None => None end
  end.

(** GetChildElementWithSpecifier, l.104-133: digits with white space around them are an index *)
Definition index_spec (s : str) : option Z :=
  let s1 := snd (span is_space s) in
  let '(ds, r) := span is_digit s1 in
  match ds, snd (span is_space r) with
  | _ :: _, [] => Some (dval ds)
  | _, _ => None
  end.
Definition find_step (tok : str) (kids : list xml) : res (option nat) :=
  match parse_step tok with
  | None => Throw
  | Some (name, None) => Ok (find_index (matches name []) kids)
  | Some (name, Some sp) =>
    match index_spec sp with
    | Some i => if UINT_MAX <? i then Throw else Ok (find_nth (matches name []) i kids)
    | None => let* ats := parse_attributes sp in Ok (find_index (matches name ats) kids)
    end
  end.

(** GetChildNodeReadonly l.334-366, CNodeWrapper::GetChildNodePathMustExist (CziMetadataBuilder.cpp l.77-108): the position
    relative to the node, or nothing *)
Definition dummy : xml := Text [].
Fixpoint find_path (toks : list str) (n : xml) : res (option (list nat)) :=
  match toks with
  | [] => Ok (Some [])
  | k :: ks =>
    let* o := find_step k (kids_of n) in
    match o with
    | None => Ok None
    | Some i => let* r := find_path ks (nth i (kids_of n) dummy) in
                Ok (match r with Some h => Some (i :: h) | None => None end)
    end
  end.
Definition path_tokens (p : str) : res (list str) :=
  let toks := tokens (fun c => c =? 47) p in
  if existsb (fun t => match t with [] => true | _ => false end) toks then Throw else Ok toks.
Definition get_child_node (p : str) (n : xml) : res (option (list nat)) :=
  let* toks := path_tokens p in find_path toks n.

(** GetOrCreateChildNodeInternal and GetOrCreateChildElementNode(WithAttributes), CziMetadataBuilder.cpp l.237-269, l.322-436:
    the document afterwards (also after an exception) and the position *)
Definition create_spec (tok : str) : res (str * list (str * str)) :=
  match parse_step tok with
  | None => Throw
  | Some (name, None) => Ok (name, [])
  | Some (name, Some sp) => let* ats := parse_attributes sp in Ok (name, ats)
  end.
Fixpoint create_path (toks : list str) (n : xml) : xml * res (list nat) :=
  match toks with
  | [] => (n, Ok [])
  | k :: ks =>
    match n, create_spec k with
    | Elem nm at_ kids, Ok (name, ats) =>
      let '(i, kids') := match find_index (matches name ats) kids with
                         | Some i => (i, kids)
                         | None => (length kids, kids ++ [Elem name ats []])
                         end in
      let '(c', r) := create_path ks (nth i kids' dummy) in
      (Elem nm at_ (upd kids' i c'), let* h := r in Ok (i :: h))
    | _, Ok _ => (n, UB)
    | _, Throw => (n, Throw)
    | _, UB => (n, UB)
    | _, OutOfFuel => (n, OutOfFuel)
    end
  end.
Definition get_or_create (p : str) (n : xml) : xml * res (list nat) :=
  match path_tokens p with Ok toks => create_path toks n | _ => (n, Throw) end.

(** the node at a position, and changing it *)
Fixpoint node_at (h : list nat) (n : xml) : option xml :=
  match h with
  | [] => Some n
  | i :: h' => match nth_error (kids_of n) i with Some c => node_at h' c | None => None end
  end.
Fixpoint change_at (h : list nat) (f : xml -> res xml) (n : xml) : res xml :=
  match h with
  | [] => f n
  | i :: h' => match n with
               | Elem nm at_ kids => match nth_error kids i with
                                     | Some c => let* c' := change_at h' f c in Ok (Elem nm at_ (upd kids i c'))
                                     | None => UB
                                     end
               | _ => UB
               end
  end.

(** pugi child_value, pugixml.cpp l.5933-5949 *)
Fixpoint child_value (kids : list xml) : str :=
  match kids with
  | [] => []
  | Text (c :: s) :: _ | CData (c :: s) :: _ => c :: s
  | _ :: kids' => child_value kids'
  end.
(** TryGetValue, XmlNodeWrapper.h l.297-310, CziMetadataBuilder.cpp l.62-75 *)
Definition try_get_value (n : xml) : option str :=
  match kids_of n with
  | Text _ :: _ => Some (child_value (kids_of n))
  | _ => None
  end.
Definition try_get_attribute (k : str) (n : xml) : option str :=
  match n with Elem _ ats _ => attr_of ats k | _ => None end.

(** SetValue, CziMetadataBuilder.cpp l.158-170, l.271-291 *)
Definition set_value (v : str) (n : xml) : res xml :=
  match n with
  | Elem nm ats kids =>
    if existsb is_elem kids then Throw
    else Ok (Elem nm ats (match find_index is_text kids with Some i => upd kids i (Text v) | None => kids ++ [Text v] end))
  | _ => UB
  end.
(** SetAttribute, l.293-320 *)
Definition set_attribute (k v : str) (n : xml) : res xml :=
  match n with
  | Elem nm ats kids =>
    Ok (Elem nm (match find_index (fun a => str_eqb (fst a) k) ats with
                 | Some i => upd ats i (k, v) | None => ats ++ [(k, v)] end) kids)
  | _ => UB
  end.
(** AppendChildNode l.24-29, RemoveChildren, RemoveAttributes, RemoveChild, RemoveAttribute l.215-233; the first child of the
    name is removed *)
Definition append_child_node (name : str) (n : xml) : res xml :=
  match n with Elem nm ats kids => Ok (Elem nm ats (kids ++ [Elem name [] []])) | _ => UB end.
Definition remove_children (n : xml) : res xml := match n with Elem nm ats _ => Ok (Elem nm ats []) | _ => UB end.
Definition remove_attributes (n : xml) : res xml := match n with Elem nm _ kids => Ok (Elem nm [] kids) | _ => UB end.
Definition remove_nth {A} (i : nat) (l : list A) : list A := firstn i l ++ skipn (S i) l.
Definition remove_child (name : str) (n : xml) : res (xml * bool) :=
  match n with
  | Elem nm ats kids => match find_index (matches name []) kids with
                        | Some i => Ok (Elem nm ats (remove_nth i kids), true)
                        | None => Ok (n, false)
                        end
  | _ => UB
  end.
Definition remove_attribute (k : str) (n : xml) : res (xml * bool) :=
  match n with
  | Elem nm ats kids => match find_index (fun a => str_eqb (fst a) k) ats with
                        | Some i => Ok (Elem nm (remove_nth i ats) kids, true)
                        | None => Ok (n, false)
                        end
  | _ => UB
  end.

(** root->GetOrCreateChildNode(p)->SetValue(v), the call used everywhere by MetadataUtils (l.724 ff.) *)
Definition write (p v : str) (n : xml) : res xml :=
  match get_or_create p n with
  | (n', Ok h) => change_at h (set_value v) n'
  | (_, Throw) => Throw
  | (_, UB) => UB
  | (_, OutOfFuel) => OutOfFuel
  end.
(** node = GetChildNode(p); node and node->TryGetValue *)
Definition read (p : str) (n : xml) : res (option str) :=
  let* o := get_child_node p n in
  Ok (match o with Some h => match node_at h n with Some c => try_get_value c | None => None end | None => None end).

(** * Values as numbers, CziMetadata.cpp l.104-271 *)

(** isspace of a wide character: outside of unsigned char and EOF undefined *)
Definition c_isspace (c : Z) : res bool := if (c <? -1) || (255 <? c) then UB else Ok (is_space c).
(** l.117-123: the position is not advanced *)
Fixpoint tail_loop (fuel : nat) (rest : str) : res bool :=
  match rest with
  | [] => Ok true
  | c :: _ => let* b := c_isspace c in
              if b then match fuel with O => OutOfFuel | S f => tail_loop f rest end else Ok false
  end.
(** wcstol, wcstoull: white space, sign, digits; sign, magnitude and rest, nothing if there are no digits *)
Definition number (s : str) : option (bool * Z * str) :=
  let s1 := snd (span is_space s) in
  let '(neg, s2) := match s1 with c :: r => if c =? 45 then (true, r) else if c =? 43 then (false, r) else (false, s1)
                                | [] => (false, []) end in
  let '(ds, r) := span is_digit s2 in
  match ds with [] => None | _ => Some (neg, dval ds, r) end.
(** the conversions of l.185-247: value and rest, or an exception (caught) *)
Definition conv_signed (lo hi : Z) (s : str) : option (Z * str) :=
  match number s with
  | Some (neg, m, r) => let v := if neg then - m else m in if (lo <=? v) && (v <=? hi) then Some (v, r) else None
  | None => None
  end.
Definition conv_unsigned (hi : Z) (s : str) : option (Z * str) :=
  match number s with
  | Some (neg, m, r) =>
    if 2 ^ 64 - 1 <? m then None
    else let v := if neg then u64 (- m) else m in if v <=? hi then Some (v, r) else None
  | None => None
  end.
Definition try_convert {A} (fuel : nat) (conv : str -> option (A * str)) (n : xml) : res (option A) :=
  match try_get_value n with
  | None => Ok None
  | Some s => match conv s with
              | None => Ok None
              | Some (v, r) => let* b := tail_loop fuel r in Ok (if b then Some v else None)
              end
  end.
Definition as_int32 fuel := try_convert fuel (conv_signed INT_MIN INT_MAX).
Definition as_int64 fuel := try_convert fuel (conv_signed (- 2 ^ 63) (2 ^ 63 - 1)).
Definition as_uint32 fuel := try_convert fuel (conv_unsigned UINT_MAX).
Definition as_uint64 fuel := try_convert fuel (conv_unsigned (2 ^ 64 - 1)).
(** wcstod is a parameter: value and number of characters consumed (none if there is no number); it does not throw *)
Definition as_double {F} (wcstod : str -> F * nat) fuel :=
  try_convert fuel (fun s => Some (fst (wcstod s), skipn (snd (wcstod s)) s)).

(** towupper of a letter of ASCII; icasecmp, utilities.cpp l.87-93 (compared with ASCII words only) *)
Definition upper (c : Z) : Z := if (97 <=? c) && (c <=? 122) then c - 32 else c.
Definition icase (a b : str) : bool := str_eqb (map upper a) (map upper b).
(** TryGetValueAsBool l.245-271 *)
Definition as_bool (n : xml) : option bool :=
  match try_get_value n with
  | None => None
  | Some s => let t := trim s in
    if icase t (txt "yes") || icase t (txt "true") || icase t (txt "1") then Some true
    else if icase t (txt "no") || icase t (txt "false") || icase t (txt "0") then Some false
    else None
  end.

(** SetValueI32, SetValueUI32, SetValueI64, SetValueUI64: std::to_wstring; SetValueBool; CziMetadataBuilder.cpp l.172-195 *)
Definition set_number (v : Z) : xml -> res xml := set_value (dec v).
Definition set_bool (b : bool) : xml -> res xml := set_value (if b then txt "true" else txt "false").
