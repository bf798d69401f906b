(** Space reserved by the writer: how much, when no number is given. *)
From Verif Require Import Base CodecModel TextModel RectModel CoordModel WriterModel.
Open Scope Z_scope.

(** CCziWriter::ReserveSubBlockDirectory (CziWriter.cpp l.1394-1425): the number of sub-blocks space is reserved for. [s] (size_t)
    is the number given; [bnds], [mrange]: what the writer was told about the document.  Sizes are int and are converted to size_t
    by the multiplication. *)
Definition times (s n : Z) : Z := if s =? 0 then u64 n else u64 (s * u64 n).
Definition dir_count (s : Z) (bnds : option bounds) (mrange : option (Z * Z)) : res Z :=
  if s =? 0 then
    let s1 := match bnds with
              | None => 0
              | Some b => fold_left (fun s d => match tget b d with Some (_, size) => times s size | None => s end) dims 0
              end in
    let* s2 := match mrange with
               | None => Ok s1
               | Some (lo, hi) => let* d := chk (hi - lo) in let* n := chk (d + 1) in Ok (times s1 n)
               end in
    Ok (if s2 =? 0 then 10 else s2)
  else Ok s.
(** CCziWriter::Create (l.911-956): what is asked for, with the number in place of the request for sub-blocks *)
Definition creation (guid : bytes) (rmeta rdir ratt : option Z) (bnds : option bounds) (mrange : option (Z * Z)) : res winfo :=
  match rdir with
  | None => Ok (mkWInfo guid rmeta None ratt)
  | Some s => let* k := dir_count s bnds mrange in Ok (mkWInfo guid rmeta (Some k) ratt)
  end.
