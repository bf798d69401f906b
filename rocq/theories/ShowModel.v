(** From display settings to a composed picture: CDisplaySettingsHelper (Src/libCZI/libCZI_Helpers.h l.20-206),
    FillOutCompositionChannelInfoFromDisplaySettings and ConvertCompositionChannelInfoInteropToChannelInfo
    (Src/libCZIAPI/src/parameterhelpers.cpp l.1458-1520, l.633-647), the overload of ComposeMultiChannel_Bgr24 which
    makes the destination (Src/libCZI/MultiChannelCompositor.cpp l.1310-1318) and
    libCZI_CompositorDoMultiChannelComposition (Src/libCZIAPI/src/libCZIApi.cpp l.1968-2010).
    Parameters: [pw] is pow for float, [sp] is the spline data the display settings hand out for control points
    (TryGetSplineData), [fresh w h] is the Bgr24 bitmap the site creates. Simplification: allocation succeeds, handles are valid. *)
From Coq Require Import Floats.SpecFloat.
From Verif Require Import Base RectModel CopyModel PixelModel CompositorModel LutModel DispModel.
Open Scope Z_scope.

(** Compositors::ChannelInfo, libCZI_Compositor.h l.690-735, and CompositionChannelInfoInterop; the tint is red, green, blue;
    the table with its element count *)
Record info := mkI { i_weight : f32; i_tint : option (Z * Z * Z); i_black : f32; i_white : f32; i_lut : option (Z * list Z) }.

Section Show.
  Context (pw : f32 -> f32 -> f32) (sp : list (f32 * f32) -> list spline) (fresh : Z -> Z -> bmp).

  (** the switch of libCZI_Helpers.h l.161-187 and parameterhelpers.cpp l.1489-1516: the table for [n] elements *)
  Definition curve_lut (n : Z) (s : setting) : res (list Z) :=
    match s_curve s with
    | Gamma g => lut8_from_gamma pw n (s_black s) (s_white s) g
    | Spline p => lut_from_splines n (s_black s) (s_white s) (sp p)
    | Linear => Ok []
    end.

  (** CDisplaySettingsHelper::AddChannelSetting, l.145-192 (an enabled channel) *)
  Definition add_channel (t : px) (s : setting) : res info :=
    let* lut := match s_curve s with
                | Linear => Ok None
                | _ => let* n := get_lut_size t in let* l := curve_lut n s in Ok (Some (n, l))
                end in
    Ok (mkI (s_weight s) (s_tint s) (s_black s) (s_white s) lut).
  (** CDisplaySettingsHelper::Initialize, l.67-78: the active channels with their infos *)
  Fixpoint active (types : Z -> px) (ds : settings) : res (list (Z * info)) :=
    match ds with
    | [] => Ok []
    | (c, s) :: r =>
        if s_enabled s then let* i := add_channel (types c) s in let* l := active types r in Ok ((c, i) :: l)
        else active types r
    end.

  (** memcpy(p, lut.data(), lutSize), parameterhelpers.cpp l.1499 and l.1512 *)
  Definition copy_lut (n : Z) (l : list Z) : res (list Z) :=
    if Z.of_nat (length l) <? n then UB else Ok (firstn (Z.to_nat n) l).
  (** FillOutCompositionChannelInfoFromDisplaySettings, l.1458-1520; everything is cleared first *)
  Definition f_zero : f32 := S754_zero false.
  Definition fill_out (sixteen : bool) (s : setting) : res info :=
    if negb (s_enabled s) then Ok (mkI f_zero None f_zero f_zero None)
    else
      let* lut := match s_curve s with
                  | Linear => Ok None
                  | _ => let n := if sixteen then 256 * 256 else 256 in
                         let* l := curve_lut n s in let* k := copy_lut n l in Ok (Some (n, k))
                  end in
      Ok (mkI (s_weight s) (s_tint s) (s_black s) (s_white s) lut).
  (** the client of the C API fills out one structure for every channel of the display settings *)
  Fixpoint fill_all (bits : Z -> bool) (ds : settings) : res (list (Z * info)) :=
    match ds with
    | [] => Ok []
    | (c, s) :: r => let* i := fill_out (bits c) s in let* l := fill_all bits r in Ok ((c, i) :: l)
    end.

  (** a channel for the compositor: the bitmap, its pixel type and the info (l.633-647) *)
  Definition to_chan (src : bmp) (t : px) (i : info) : chan :=
    mkChan src t (i_weight i) (match i_tint i with Some (r, g, b) => Some (b, g, r) | None => None end) (i_black i) (i_white i)
      (match i_lut i with Some (n, _) => n | None => 0 end) (match i_lut i with Some _ => false | None => true end)
      (match i_lut i with Some (_, l) => fun a => nth (Z.to_nat a) l 0 | None => fun _ => 0 end)
      (match i_lut i with Some (_, l) => Z.of_nat (length l) | None => 0 end).
  Definition chans (types : Z -> px) (srcs : Z -> bmp) (l : list (Z * info)) : list chan :=
    map (fun e => to_chan (srcs (fst e)) (types (fst e)) (snd e)) l.

  (** Compositors::ComposeMultiChannel_Bgr24, MultiChannelCompositor.cpp l.1310-1318: the size is that of the first bitmap *)
  Definition compose_new (chs : list chan) : res bmp :=
    match chs with
    | [] => UB
    | ch :: _ => compose_multi (fresh (bw (h_src ch)) (bh (h_src ch))) Bgr24 None chs
    end.
  (** the outcome of libCZI_CompositorDoMultiChannelComposition, l.1968-2010: an error code instead of an exception *)
  Definition compose_capi (chs : list chan) : res bmp :=
    if Z.of_nat (length chs) <=? 0 then Throw else compose_new chs.

  (** the picture of the document with the helper, and with the C API *)
  Definition show_helper (types : Z -> px) (srcs : Z -> bmp) (ds : settings) : res bmp :=
    let* l := active types ds in compose_new (chans types srcs l).
  Definition show_capi (bits : Z -> bool) (types : Z -> px) (srcs : Z -> bmp) (ds : settings) : res bmp :=
    let* l := fill_all bits ds in compose_capi (chans types srcs l).
End Show.
