(** * Spec_Names: what it means for a string to spell the name of a curve

    Written without the model of strings.ToUpper.  The curve names are ASCII; the only characters
    whose upper case is an ASCII letter are the ASCII letters, the long s (U+017F, bytes C5 BF)
    and the dotless i (U+0131, bytes C4 B1) (Unicode character database). *)
From Coq Require Import Ascii String List.
Import ListNotations.
Open Scope string_scope.

(** the upper and the lower case of one letter *)
Definition cases : list (ascii * ascii) :=
  combine (list_ascii_of_string "ABCDEFGHIJKLMNOPQRSTUVWXYZ") (list_ascii_of_string "abcdefghijklmnopqrstuvwxyz").

(** one character of a name, as it may be written *)
Inductive writes : ascii -> string -> Prop :=
| w_same : forall a, writes a (String a "")
| w_lower : forall u l, In (u, l) cases -> writes u (String l "")
| w_upper : forall u l, In (u, l) cases -> writes l (String u "")
| w_long_s : forall a, a = "S"%char \/ a = "s"%char -> writes a (String "197" (String "191" ""))
| w_dotless_i : forall a, a = "I"%char \/ a = "i"%char -> writes a (String "196" (String "177" "")).

(** [spells s n]: the string s writes the name n *)
Inductive spells : string -> string -> Prop :=
| spells_nil : spells "" ""
| spells_cons : forall a n w s, writes a w -> spells s n -> spells (w ++ s) (String a n).
