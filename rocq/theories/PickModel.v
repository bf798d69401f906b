(** Choosing what CZICmd extracts: the argument "--selection" and the commands ExtractAttachment and ExtractSubBlock
    (CZICmd/cmdlineoptions.cpp, execute.cpp).  rapidjson is modelled as in JsonModel. *)
From Coq Require Import String Floats.SpecFloat.
From Verif Require Import Base CodecModel TextModel GuidModel JsonModel WriterModel ReaderModel PixelModel.
Open Scope Z_scope.

(** ItemValue (cmdlineoptions.h l.99-130), without the type Invalid *)
Inductive item := IStr (s : bytes) | INum (x : spec_float) | IBool (b : bool).
Section Pick.
  (** the number rapidjson makes of a text with fraction or exponent; the conversion of UTF-8 to wide characters (utils.cpp l.67-105), None:
      it throws *)
  Variable num : str -> spec_float.
  Variable wide : bytes -> option str.

  (** the types accepted by TryParseSelection: IsString, IsDouble, IsBool; integers are no doubles unless they exceed 64 bits; a number
      beyond the range of double is an error of the parser *)
  Definition item_of (v : jv) : option item :=
    match v with
    | VStr s => Some (IStr (c_text s))
    | VNum t => if finite (num t) then Some (INum (num t)) else None
    | VInt z => if (- 2 ^ 63 <=? z) && (z <? 2 ^ 64) then None else if finite (num (dec z)) then Some (INum (num (dec z))) else None
    | VBool b => Some (IBool b)
    | _ => None
    end.
  (** map[name] = iv *)
  Definition put (k : bytes) (v : item) (m : list (bytes * item)) : list (bytes * item) := (k, v) :: filter (fun x => negb (eqbytes (fst x) k)) m.
  Definition get (k : bytes) (m : list (bytes * item)) : option item := option_map snd (find (fun x => eqbytes (fst x) k) m).
  Fixpoint items (l : list (str * jv)) (m : list (bytes * item)) : option (list (bytes * item)) :=
    match l with
    | [] => Some m
    | (k, v) :: l' => match item_of v with Some i => items l' (put (c_text k) i m) | None => None end
    end.
  (** TryParseSelection (cmdlineoptions.cpp l.1609-1654) *)
  Definition parse_selection (text : str) : option (list (bytes * item)) :=
    match json_read text with Some (VObj l) => items l [] | _ => None end.
  (** CreateSelectionInfo (execute.cpp l.935-950): the name and the index, if there are; (int)value *)
  Definition selection_info (m : list (bytes * item)) : res (option bytes * option Z) :=
    let n := match get (txt "name") m with Some (IStr s) => Some s | _ => None end in
    match get (txt "index") m with
    | Some (INum x) => let* i := f32_cast INT_MIN INT_MAX x in Ok (n, Some i)
    | _ => Ok (n, None)
    end.
  (** the argument, which is not looked at if it is empty (cmdlineoptions.cpp l.893-897) *)
  Definition selection (text : str) : res (option bytes * option Z) :=
    match text with [] => Ok (None, None) | _ => match parse_selection text with Some m => selection_info m | None => Throw end end.
  (** IsSelection (l.952-973) *)
  Definition is_selection (k : Z) (i : ainfo) (s : option bytes * option Z) : bool :=
    match fst s with Some n => eqbytes n (snd i) | None => true end && match snd s with Some j => j =? k | None => true end.

  Definition widened (b : bytes) : res str := match wide b with Some w => Ok w | None => Throw end.
  (** MakeOutputFilename (cmdlineoptions.cpp l.1171-1188); [out]: path and name of the output *)
  Definition output_name (out suffix ext : str) : str := out ++ c_text suffix ++ [46] ++ c_text ext.
  (** GenerateFilename (execute.cpp l.975-997) *)
  Definition file_name (out : str) (k : Z) (i : ainfo) : res str :=
    let t := c_text (snd (fst i)) in
    let* e := match t with [] => Ok (txt "XXX") | _ => widened t end in
    let* s := match snd i with [] => Ok [95] | _ => let* w := widened (snd i) in Ok ([95] ++ w ++ [95]) end in
    Ok (output_name out (s ++ dec k) e).
  (** CExecuteExtractAttachment::execute (l.905-933): the files written, in order, with their bytes; that files can be created is left to
      the system, and the hash is left out *)
  Fixpoint extract_from (out : str) (s : option bytes * option Z) (strict : bool) (f : file) (k : Z) (l : list attentry) : res (list (str * bytes)) :=
    match l with
    | [] => Ok []
    | e :: l' =>
      let* i := ainfo_of e in
      if is_selection k i s then
        let* n := file_name out k i in
        let* d := read_attachment strict f (ae_pos e) in
        let* r := extract_from out s strict f (k + 1) l' in Ok ((n, d) :: r)
      else extract_from out s strict f (k + 1) l'
    end.
  Definition extract_attachments (out text : str) (strict : bool) (f : file) (o : opened) : res (list (str * bytes)) :=
    let* s := selection text in extract_from out s strict f 0 (op_atts o).
  (** CExecuteExtractSubBlock (l.1035-1108): the sub-blocks written as pictures and the names of the files *)
  Fixpoint extract_subs_from (out : str) (s : option bytes * option Z) (k : Z) (l : list sbe) : list (Z * str) :=
    match l with
    | [] => []
    | _ :: l' => if match snd s with Some j => j =? k | None => true end then (k, output_name out ([35] ++ dec k) (txt "PNG")) :: extract_subs_from out s (k + 1) l'
                 else extract_subs_from out s (k + 1) l'
    end.
  Definition extract_subs (out text : str) (o : opened) : res (list (Z * str)) := let* s := selection text in Ok (extract_subs_from out s 0 (op_dir o)).
End Pick.
