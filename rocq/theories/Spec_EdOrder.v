(** * Spec_EdOrder: points of small order on edwards25519, and the verification equation of RFC 8032 with the cofactor *)
From Coq Require Import ZArith List.
From Verif Require Import Base Spec_EC Spec_Group Ed25519 EdCurve Spec_Ed25519.
Import ListNotations.
Open Scope Z_scope.

(** The coordinates of the eight points T with 8 T = 0 *)
Definition small_points : list (Z * Z) :=
  [(0, 1); (0, edP - 1);
   (19681161376707505956807079304988542015446066515923890162744021073123829784752, 0);
   (38214883241950591754978413199355411911188925816896391856984770930832735035197, 0);
   (14399317868200118260347934320527232580618823971194345261214217575416788799818, 2707385501144840649318225287225658788936804267575313519463743609750303402022);
   (43496726750457979451437558183816721346016168361625936758514574428539776020131, 2707385501144840649318225287225658788936804267575313519463743609750303402022);
   (14399317868200118260347934320527232580618823971194345261214217575416788799818, 55188659117513257062467267217118295137698188065244968500265048394206261417927);
   (43496726750457979451437558183816721346016168361625936758514574428539776020131, 55188659117513257062467267217118295137698188065244968500265048394206261417927)].

(** The lower 255 bits of the byte strings that are read as such a point: the five values of y, and p and p + 1 *)
Definition small_keys : list Z :=
  [0; 1; edP - 1; edP; edP + 1;
   2707385501144840649318225287225658788936804267575313519463743609750303402022;
   55188659117513257062467267217118295137698188065244968500265048394206261417927].

(** RFC 8032, 5.1.7: 8 s B = 8 R + 8 k A *)
Section Env.
Variable sha512 : bytes -> bytes.
Definition cofactored (pub msg sig : bytes) : Prop :=
  exists A R Rb Sb, sig = Rb ++ Sb /\ length Sb = 32%nat /\ lev Sb < edL /\ read_as pub A /\ point_bytes R Rb /\
    gadd (gmul 8 R) (gmul (8 * challenge sha512 Rb pub msg) A) = gmul (8 * lev Sb) edB.
End Env.
