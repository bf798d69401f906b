(** What the arguments of the command-line tool mean as text.  Digits, white space, words and integers as in OptsSpec. *)
From Coq Require Import String QArith SpecFloat.
From Verif Require Import Base CodesModel TextModel XmlModel OptsSpec.
Open Scope Z_scope.

Definition digit_char (c : Z) : Prop := 48 <= c <= 57.
Definition numeral (s : str) : Prop := s <> [] /\ Forall digit_char s.
Definition times_char (c : Z) : Prop := c = 42 \/ c = 120 \/ c = 88.
(** "1024x768", "1024 * 768" *)
Definition size_text (s a b : str) : Prop :=
  exists x t y, numeral a /\ numeral b /\ blank x /\ blank y /\ times_char t /\ s = a ++ x ++ [t] ++ y ++ b.
(** "4x5", "4 x 5 ; 10 %": numerals of rows, columns and, possibly, percents *)
Definition tiles_text (s a b : str) (p : option str) : Prop :=
  exists x t y z tail z', numeral a /\ numeral b /\ blank x /\ blank y /\ blank z /\ blank z' /\ times_char t /\
    s = a ++ x ++ [t] ++ y ++ b ++ z ++ tail ++ z' /\
    match p with
    | None => tail = []
    | Some n => exists m u v, (m = 44 \/ m = 59 \/ m = 45) /\ blank u /\ blank v /\ numeral n /\ tail = [m] ++ u ++ n ++ v ++ [37]
    end.
(** a size which is neither zero nor too big for 32 bits *)
Definition proper (n : str) : Prop := 0 < dval n < 2 ^ 32.
Definition percent_of (p : option str) : Z := match p with Some n => dval n | None => 0 end.
Definition enormous (n : str) : Prop := 2 ^ 64 <= dval n.

(** spaces and tabs *)
Definition tabs (s : str) : Prop := Forall (fun c => c = 32 \/ c = 9) s.
(** an integer with white space around *)
Definition number_text (s : str) (n : Z) : Prop := exists a t b, blank a /\ tabs b /\ int_text t n /\ s = a ++ t ++ b.
(** "abs(-10,20,300,400)" *)
Definition rect_text (s : str) (absolute : bool) (x y w h : Z) : Prop :=
  exists X Y W H, int_text X x /\ int_text Y y /\ int_text W w /\ int_text H h /\ 0 < w /\ 0 < h /\
    s = txt (if absolute then "abs" else "rel") ++ txt "(" ++ X ++ txt "," ++ Y ++ txt "," ++ W ++ txt "," ++ H ++ txt ")".
Definition pyramid_text (s : str) (factor layer : Z) : Prop :=
  exists a d b, number_text a factor /\ number_text b layer /\ (d = 59 \/ d = 44 \/ d = 124) /\ s = a ++ [d] ++ b.

(** hexadecimal numerals *)
Inductive hex_digit : Z -> Z -> Prop :=
| hex_09 c : 48 <= c <= 57 -> hex_digit c (c - 48)
| hex_AF c : 65 <= c <= 70 -> hex_digit c (c - 65 + 10)
| hex_af c : 97 <= c <= 102 -> hex_digit c (c - 97 + 10).
Inductive hex_value : str -> Z -> Prop :=
| hex_one c x : hex_digit c x -> hex_value [c] x
| hex_more s v c x : hex_value s v -> hex_digit c x -> hex_value (s ++ [c]) (16 * v + x).
Definition alpha_text (t : str) (a : Z) : Prop := numeral t /\ a = dval t \/ exists h, t = txt "0x" ++ h /\ hex_value h a.
(** "bgr24", "bgra32", "bgra32(128)", "BGRA32(0x80)" *)
Definition format_text (s : str) (p : pixel_type) (alpha : option Z) : Prop :=
  exists a w b, tabs a /\ tabs b /\ s = a ++ w ++ b /\
    (same_word w (txt "bgr24") /\ p = Bgr24 /\ alpha = None \/
     same_word w (txt "bgra32") /\ p = Bgra32 /\ alpha = Some 255 \/
     exists B t v, same_word B (txt "bgra32") /\ alpha_text t v /\ v <= 255 /\ w = B ++ txt "(" ++ t ++ txt ")" /\ p = Bgra32 /\ alpha = Some v).
Definition enormous_alpha (s : str) : Prop :=
  exists a B t b, tabs a /\ tabs b /\ same_word B (txt "bgra32") /\ numeral t /\ 2 ^ 31 <= dval t /\ s = a ++ B ++ txt "(" ++ t ++ txt ")" ++ b.

(** ** lists of levels: the words and the levels (numbers of bits) they stand for *)
Definition upto (n : nat) : list Z := map Z.of_nat (seq 0 n).
Definition verbosity_words : list (str * list Z) :=
  [(txt "all", upto 32); (txt "errors", [0; 1]); (txt "errors1", [0]); (txt "errors2", [1]); (txt "warnings", [2; 3]); (txt "warnings1", [2]);
   (txt "warnings2", [3]); (txt "infos", [4; 5]); (txt "infos1", [4]); (txt "infos2", [5])].
Definition info_words : list (str * list Z) :=
  [(txt "statistics", [0]); (txt "rawxml", [1]); (txt "displaysettings", [2]); (txt "displaysettingsjson", [3]); (txt "allsubblocks", [4]);
   (txt "attachments", [5]); (txt "allattachments", [6]); (txt "pyramidstatistics", [7]); (txt "generalinfo", [8]); (txt "scalinginfo", [9]);
   (txt "all", upto 10)].
(** an item names levels *)
Definition names (words : list (str * list Z)) (item : str) (levels : list Z) : Prop :=
  exists a w b name, tabs a /\ tabs b /\ item = a ++ w ++ b /\ In (name, levels) words /\ same_word w name.
Definition known (words : list (str * list Z)) (item : str) : Prop := tabs item \/ exists levels, names words item levels.
(** items with commas or semicolons between *)
Inductive items : str -> list str -> Prop :=
| items_last i : Forall (fun c => c <> 44 /\ c <> 59) i -> items i [i]
| items_more i d s l : Forall (fun c => c <> 44 /\ c <> 59) i -> d = 44 \/ d = 59 -> items s l -> items (i ++ [d] ++ s) (i :: l).
(** no item is the empty text, but for the last *)
Definition no_hole (l : list str) : Prop := forall before i after, l = before ++ i :: after -> after <> [] -> i <> [].

(** ** the size of a cache: a decimal number (its digits M, K of them behind the point) and a unit *)
Definition decimal_text (t : str) (M K : Z) : Prop :=
  exists sg ip fp, (sg = [] \/ sg = [43]) /\ Forall digit_char ip /\ Forall digit_char fp /\ M = dval (ip ++ fp) /\ K = Z.of_nat (List.length fp) /\
    (ip <> [] /\ fp = [] /\ t = sg ++ ip \/ ip <> [] /\ t = sg ++ ip ++ [46] ++ fp \/ ip = [] /\ fp <> [] /\ t = sg ++ [46] ++ fp).
Definition units : list (str * Z) :=
  [(txt "k", 10 ^ 3); (txt "m", 10 ^ 6); (txt "g", 10 ^ 9); (txt "t", 10 ^ 12); (txt "ki", 2 ^ 10); (txt "mi", 2 ^ 20); (txt "gi", 2 ^ 30); (txt "ti", 2 ^ 40)].
Definition bytes_text (s : str) (M K factor : Z) : Prop :=
  exists a t b u name bb c, blank a /\ blank b /\ blank c /\ decimal_text t M K /\ In (name, factor) units /\ same_word u name /\
    (bb = [] \/ bb = txt "b" \/ bb = txt "B") /\ s = a ++ t ++ b ++ u ++ bb ++ c.
(** the bytes it means *)
Definition bytes_meant (M K factor : Z) : Q := (inject_Z (M * factor) / inject_Z (10 ^ K))%Q.
