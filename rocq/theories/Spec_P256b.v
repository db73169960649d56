(** * Spec_P256b: correctness of the assembly routines, as hypotheses *)
From Coq Require Import ZArith List.
From Verif Require Import Base Curves Spec_Group P256 Spec_P256.
Import ListNotations.
Open Scope Z_scope.

Record prims_ok (E : ecgroup) (A : prims) : Prop := {
  ok_mul : mul_ok cP (a_mul A);
  ok_sqr : forall a, is_words 4 a -> a_sqr A a = a_mul A a a;
  ok_from : forall a, is_words 4 a -> is_words 4 (a_from A a) /\ lval (a_from A a) < cP /\ (lval (a_from A a) * 2 ^ 256) mod cP = lval a mod cP;
  ok_l2b : forall a, is_words 4 a -> a_l2b A a = to_be 32 (lval a);
  (** negation, for 0 < a < p *)
  ok_neg0 : forall a, is_words 4 a -> a_neg A a 0 = a;
  ok_neg1 : forall a, is_words 4 a -> 0 < lval a < cP -> is_words 4 (a_neg A a 1) /\ lval (a_neg A a 1) = cP - lval a;
  ok_negw : forall a, is_words 4 a -> is_words 4 (a_neg A a 1);
  ok_mov : forall a b c, is_words 12 a -> is_words 12 b -> 0 <= c < 2 ^ 32 -> a_mov A a b c = if c =? 0 then b else a;
  (** table lookups, entry 0 meaning zeros *)
  ok_select : forall t i, is_words 192 t -> 0 <= i <= 16 ->
    a_select A t i = if i =? 0 then repeat 0 12 else sub t (12 * (Z.to_nat i - 1)) 12;
  ok_selbase : forall t i, is_words 512 t -> 0 <= i <= 64 ->
    a_selbase A t i = if i =? 0 then repeat 0 8 else sub t (8 * (Z.to_nat i - 1)) 8;
  (** doubling, infinity included; addition of different points; addition of equal points or of infinity
      gives infinity *)
  ok_dbl : forall p P, rep12 E p P -> rep12 E (a_dbl A p) (gadd P P);
  ok_addw : forall p q, is_words 12 p -> is_words 12 q -> is_words 12 (a_add A p q);
  ok_add : forall p q P Q, rep12 E p P -> rep12 E q Q -> P <> gO -> Q <> gO -> P <> Q -> rep12 E (a_add A p q) (gadd P Q);
  ok_add_degenerate : forall p q P Q, rep12 E p P -> rep12 E q Q -> P = gO \/ Q = gO \/ P = Q -> rep12 E (a_add A p q) gO;
  (** mixed addition: zero = 0 takes the second operand, otherwise sel = 0 keeps the first *)
  ok_addaff_first : forall p x y sign sel, is_words 12 p -> is_words 4 x -> is_words 4 y -> 0 <= sign <= 1 -> 0 <= sel <= 64 ->
    a_addaff A p (x ++ y) sign sel 0 = x ++ a_neg A y sign ++ one_mont;
  ok_addaff_skip : forall p q sign zero, is_words 12 p -> is_words 8 q -> 0 <= sign <= 1 -> 0 < zero < 128 ->
    a_addaff A p q sign 0 zero = p;
  ok_addaff : forall p q sign sel zero P Q, rep12 E p P -> arep8 E q Q -> 0 <= sign <= 1 -> 0 < sel <= 64 -> 0 < zero < 128 ->
    P <> gO -> P <> signed E sign Q -> P <> gneg (signed E sign Q) -> rep12 E (a_addaff A p q sign sel zero) (gadd P (signed E sign Q))
}.
