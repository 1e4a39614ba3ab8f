(** Model of color_finder.py. *)
From Coq Require Import String Ascii List Bool Arith ZArith QArith.
From Verif Require Import Py.
Import ListNotations.
Open Scope string_scope.
Open Scope list_scope.

(** color_finder.py:11-34 ALL_COLOURS *)
Definition all_colours : dict (list string) := [
  ("rose", ["#ffe4e6"; "#fecdd3"; "#fda4af"; "#fb7185"; "#f43f5e"; "#e11d48"; "#be123c"; "#9f1239"; "#881337"]);
  ("pink", ["#fce7f3"; "#fbcfe8"; "#f9a8d4"; "#f472b6"; "#ec4899"; "#db2777"; "#be185d"; "#9d174d"; "#831843"]);
  ("fuchsia", ["#fae8ff"; "#f5d0fe"; "#f0abfc"; "#e879f9"; "#d946ef"; "#c026d3"; "#a21caf"; "#86198f"; "#701a75"]);
  ("purple", ["#f3e8ff"; "#e9d5ff"; "#d8b4fe"; "#c084fc"; "#a855f7"; "#9333ea"; "#7e22ce"; "#6b21a8"; "#581c87"]);
  ("violet", ["#ede9fe"; "#ddd6fe"; "#c4b5fd"; "#a78bfa"; "#8b5cf6"; "#7c3aed"; "#6d28d9"; "#5b21b6"; "#4c1d95"]);
  ("indigo", ["#e0e7ff"; "#c7d2fe"; "#a5b4fc"; "#818cf8"; "#6366f1"; "#4f46e5"; "#4338ca"; "#3730a3"; "#312e81"]);
  ("blue", ["#dbeafe"; "#bfdbfe"; "#93c5fd"; "#60a5fa"; "#3b82f6"; "#2563eb"; "#1d4ed8"; "#1e40af"; "#1e3a8a"]);
  ("sky", ["#e0f2fe"; "#bae6fd"; "#7dd3fc"; "#38bdf8"; "#0ea5e9"; "#0284c7"; "#0369a1"; "#075985"; "#0c4a6e"]);
  ("cyan", ["#cffafe"; "#a5f3fc"; "#67e8f9"; "#22d3ee"; "#06b6d4"; "#0891b2"; "#0e7490"; "#155e75"; "#164e63"]);
  ("teal", ["#ccfbf1"; "#99f6e4"; "#5eead4"; "#2dd4bf"; "#14b8a6"; "#0d9488"; "#0f766e"; "#115e59"; "#134e4a"]);
  ("emerald", ["#d1fae5"; "#a7f3d0"; "#6ee7b7"; "#34d399"; "#10b981"; "#059669"; "#047857"; "#065f46"; "#064e3b"]);
  ("green", ["#dcfce7"; "#bbf7d0"; "#86efac"; "#4ade80"; "#22c55e"; "#16a34a"; "#15803d"; "#166534"; "#14532d"]);
  ("lime", ["#ecfccb"; "#d9f99d"; "#bef264"; "#a3e635"; "#84cc16"; "#65a30d"; "#4d7c0f"; "#3f6212"; "#365314"]);
  ("yellow", ["#fef9c3"; "#fef08a"; "#fde047"; "#facc15"; "#eab308"; "#ca8a04"; "#a16207"; "#854d0e"; "#713f12"]);
  ("amber", ["#fef3c7"; "#fde68a"; "#fcd34d"; "#fbbf24"; "#f59e0b"; "#d97706"; "#b45309"; "#92400e"; "#78350f"]);
  ("orange", ["#ffedd5"; "#fed7aa"; "#fdba74"; "#fb923c"; "#f97316"; "#ea580c"; "#c2410c"; "#9a3412"; "#7c2d12"]);
  ("red", ["#fee2e2"; "#fecaca"; "#fca5a5"; "#f87171"; "#ef4444"; "#dc2626"; "#b91c1c"; "#991b1b"; "#7f1d1d"]);
  ("warmGray", ["#f5f5f4"; "#e7e5e4"; "#d6d3d1"; "#a8a29e"; "#78716c"; "#57534e"; "#44403c"; "#292524"; "#1c1917"]);
  ("trueGray", ["#f5f5f5"; "#e5e5e5"; "#d4d4d4"; "#a3a3a3"; "#737373"; "#525252"; "#404040"; "#262626"; "#171717"]);
  ("gray", ["#f4f4f5"; "#e4e4e7"; "#d4d4d8"; "#a1a1aa"; "#71717a"; "#52525b"; "#3f3f46"; "#27272a"; "#18181b"]);
  ("coolGray", ["#f3f4f6"; "#e5e7eb"; "#d1d5db"; "#9ca3af"; "#6b7280"; "#4b5563"; "#374151"; "#1f2937"; "#111827"]);
  ("blueGray", ["#f1f5f9"; "#e2e8f0"; "#cbd5e1"; "#94a3b8"; "#64748b"; "#475569"; "#334155"; "#1e293b"; "#0f172a"])
].

(** color_finder.py:39-56 Colors.aliases *)
Definition aliases : dict string := [
  ("b","blue"); ("r","red"); ("g","green"); ("k","gray"); ("f","gray"); ("m","rose"); ("c","cyan");
  ("o","orange"); ("y","yellow"); ("a","amber"); ("p","purple"); ("e","grey"); ("lg","lime");
  ("lb","sky"); ("black","gray"); ("white","gray")].

(** color_finder.py:57-69 Colors.default_colors *)
Definition default_colors : list string :=
  ["blue"; "emerald"; "red"; "purple"; "amber"; "gray"; "cyan"; "teal"; "green"; "orange"; "indigo"].

(** [ALL_COLOURS[color][index]]: KeyError / IndexError when absent.  A negative index counts from the end. *)
(** color_finder.py:76, 86, 94 *)
Definition colour_at (color : string) (index : Z) : res string :=
  match dget color all_colours with
  | None => Err KeyError
  | Some l =>
      let i := if (index <? 0)%Z then (Z.of_nat (length l) + index)%Z else index in
      if (i <? 0)%Z then Err IndexError else
      match nth_error l (Z.to_nat i) with Some c => Ok c | None => Err IndexError end
  end.

(** color_finder.py:72-76 next_colour: the whole sequence the generator yields. *)
Definition next_colour : list (res string) :=
  flat_map (fun index => map (fun color => colour_at color index) default_colors) [4; 7; 2; 8; 3; 6; 1; 5]%Z.

(** A colour given by the user: a string, or an array of channel values in [0,1].  matplotlib's
    rgb2hex is not ChainConsumer code: [rgb2hex] below is a parameter of [format]. *)
(** color_finder.py:78-82 *)
Inductive colour_input := CName (s : string) | CRgb (rgb : list Q).

(** Python [s.lower()] on ASCII strings (non-ASCII letters are left alone: simplification). *)
(** color_finder.py:90, 92 *)
Definition lower_ascii (c : ascii) : ascii :=
  let n := nat_of_ascii c in
  if (65 <=? n)%nat && (n <=? 90)%nat then ascii_of_nat (n + 32) else c.
(** color_finder.py:90, 92; chain.py:160 *)
Fixpoint lower (s : string) : string :=
  match s with EmptyString => EmptyString | String c r => String (lower_ascii c) (lower r) end.

(** color_finder.py:83, 111 *)
Definition hash : ascii := "#"%char.

(** color_finder.py:83-96 the string part of Colors.format.  [color[0]] on "" is an IndexError. *)
Definition format_name (color : string) : res string :=
  match color with
  | EmptyString => Err IndexError                                                  (* 83 *)
  | String c _ =>
      if Ascii.eqb c hash then Ok color                                            (* 83-84 *)
      else if dmem color all_colours then colour_at color 4                        (* 85-86 *)
      else match dget color aliases with
           | Some alias =>                                                         (* 87-88 *)
               let index := if smem (lower color) ["k"; "black"] then (-1)%Z        (* 90-91 *)
                            else if smem (lower color) ["f"; "white"] then 0%Z      (* 92-93 *)
                            else 4%Z in                                            (* 89 *)
               colour_at alias index                                               (* 94 *)
           | None => Err ValueError                                                (* 95-96 *)
           end
  end.

(** color_finder.py:78-96 Colors.format.  [None] takes the first colour of the generator. *)
Definition format (rgb2hex : list Q -> string) (color : option colour_input) : res string :=
  match color with
  | None => hd (Err StopIteration) next_colour                                     (* 79-80 *)
  | Some (CRgb l) => format_name (rgb2hex l)                                       (* 81-82 *)
  | Some (CName s) => format_name s
  end.

(** color_finder.py:98-102 get_formatted, get_default *)
Definition get_formatted (rgb2hex : list Q -> string) (l : list colour_input) : res (list string) :=
  rmapM (fun c => format rgb2hex (Some c)) l.
(** color_finder.py:101-102 *)
Definition get_default (rgb2hex : list Q -> string) : res (list string) :=
  get_formatted rgb2hex (map CName default_colors).

(** Python [s.strip("#")] *)
(** color_finder.py:111 *)
Fixpoint lstrip (s : string) : string :=
  match s with String c r => if Ascii.eqb c hash then lstrip r else s | EmptyString => EmptyString end.
(** color_finder.py:111 *)
Fixpoint srev_app (s acc : string) : string :=
  match s with EmptyString => acc | String c r => srev_app r (String c acc) end.
(** color_finder.py:111 *)
Definition srev (s : string) : string := srev_app s EmptyString.
(** color_finder.py:111 *)
Definition strip (s : string) : string := srev (lstrip (srev (lstrip s))).

(** [int(s, 16)] on the characters 0-9, a-f, A-F; anything else is a ValueError.  (Python also accepts a
    sign, blanks, underscores or a 0x prefix inside the two characters: not modelled.) *)
(** color_finder.py:114 *)
Definition hex_digit (c : ascii) : option Z :=
  let n := Z.of_nat (nat_of_ascii c) in
  if (48 <=? n)%Z && (n <=? 57)%Z then Some (n - 48)%Z
  else if (97 <=? n)%Z && (n <=? 102)%Z then Some (n - 87)%Z
  else if (65 <=? n)%Z && (n <=? 70)%Z then Some (n - 55)%Z
  else None.
(** color_finder.py:114 *)
Definition hex2 (a b : ascii) : res Z :=
  match hex_digit a, hex_digit b with Some x, Some y => Ok (16 * x + y)%Z | _, _ => Err ValueError end.

(** [f"{v:02x}"] for 0 <= v <= 255 *)
(** color_finder.py:118 *)
Definition digit_hex (d : Z) : ascii :=
  ascii_of_nat (Z.to_nat (if (d <? 10)%Z then d + 48 else d + 87)%Z).
(** color_finder.py:118 *)
Definition hex_of (v : Z) (rest : string) : string :=
  String (digit_hex (v / 16)) (String (digit_hex (v mod 16)) rest).

(** Python [int(x)] truncates towards zero. *)
(** color_finder.py:115-117 *)
Definition int_of (q : Q) : Z := Z.quot (Qnum q) (Zpos (Qden q)).

(** color_finder.py:120-125 _clamp *)
Definition clamp (v minimum maximum : Z) : Z :=
  if (v <? minimum)%Z then minimum else if (maximum <? v)%Z then maximum else v.

(** color_finder.py:110-118 scale_colour.  Exact arithmetic for the product. *)
Definition scale_colour (rgb2hex : list Q -> string) (color : colour_input) (factor : Q) : res string :=
  rbind (format rgb2hex (Some color)) (fun c =>
  let hexx := strip c in                                                           (* 111 *)
  if negb (Qle_bool 0 factor) then Ok hexx else                                    (* 112-113 *)
  match hexx with
  | String r1 (String r2 (String g1 (String g2 (String b1 (String b2 EmptyString))))) =>
      rbind (hex2 r1 r2) (fun r => rbind (hex2 g1 g2) (fun g => rbind (hex2 b1 b2) (fun b =>   (* 114 *)
      let sc v := clamp (int_of (inject_Z v * factor)) 0 255 in                    (* 115-117 *)
      Ok (String hash (hex_of (sc r) (hex_of (sc g) (hex_of (sc b) EmptyString)))))))  (* 118 *)
  | _ => Ok hexx                                                                   (* 112-113 *)
  end).
