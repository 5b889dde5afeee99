(** Model of floats in messages: Value::Set(const float), src/Jzon.cpp 373-379, which writes the float with operator<<
    of a std::stringstream, and Value::ToFloat 293-309, which reads it with operator>>.

    The C++ library is represented by its documented contract. operator<< writes six significant digits of the exact
    value, rounded to nearest with ties to even, without zeros at the end, in fixed notation for decimal exponents
    from -4 to 5 and in scientific notation otherwise. operator>> takes an optional minus sign, digits, an optional
    point with digits and an optional exponent, up to the first other character; the value is the float nearest to
    the decimal (the largest float if it is beyond), and 0 if there is no digit.

    Floats are those of F32: a float is the number of units of 2^-149 it is worth. Simplifications: infinities, NaNs
    and the sign of zero are left out; the locale is the classic one; a plus sign at the start, and an exponent
    without digits, which no number of the parser and none written by operator<< has, are not treated as the library
    does. *)
From Coq Require Import Ascii String.
From Verif Require Import Base JsonModel CtlModel F32.
Local Open Scope list_scope.
Local Open Scope Z_scope.

(** Arithmetic for the conversions of Jzon.cpp 293-309 and 373-379: 10^k is [up k / dn k]. *)
Definition up (k : Z) : Z := 10 ^ Z.max k 0.
(** Model's own. *)
Definition dn (k : Z) : Z := 10 ^ Z.max (- k) 0.
(** The float nearest to m * 10^k, and the largest float (Jzon.cpp 302-304). *)
Definition ofDec (m k : Z) : Z := fl (m * up k * one) (dn k).
(** FLT_MAX. *)
Definition fltMax : Z := (2 ^ 24 - 1) * 2 ^ 253.

(** *** Writing, of a positive float: sstr << value, Jzon.cpp 376. *)
(** 10^x <= v. *)
Definition atLeast (v x : Z) : bool := up x * one <=? v * dn x.
(** The decimal exponent, from 38 (that of the largest float) down to -45 (that of the smallest). *)
Fixpoint decade (fuel : nat) (x v : Z) : Z :=
  match fuel with O => x | S f => if atLeast v x then x else decade f (x - 1) v end.
(** Six digits and the decimal exponent: v is about m * 10^(x-5). *)
Definition six (v : Z) : Z * Z :=
  let x := decade 84 38 v in
  let m := rne (v * dn (x - 5)) (one * up (x - 5)) in
  if m =? 1000000 then (100000, x + 1) else (m, x).
(** Zeros at the end are left out. *)
Fixpoint trim (fuel : nat) (m : Z) (l : nat) : Z * nat :=
  match fuel with O => (m, l) | S f => if m mod 10 =? 0 then trim f (m / 10) (pred l) else (m, l) end.
(** The last [n] digits. *)
Fixpoint digs (n : nat) (m : Z) : str := match n with O => [] | S n => digs n (m / 10) ++ [digitChar (m mod 10)] end.
(** [m] has [l] digits; a point before the last [f] of them, none if f = 0. *)
Definition pointed (m : Z) (l f : nat) : str :=
  match f with O => digs l m | _ => digs (l - f) (m / 10 ^ Z.of_nat f) ++ "."%char :: digs f (m mod 10 ^ Z.of_nat f) end.
(** operator<<(float) (library), Jzon.cpp 373-379. *)
Definition showPos (v : Z) : str :=
  let '(m, x) := six v in
  let '(m, l) := trim 5 m 6 in
  if (-4 <=? x) && (x <? 6) then
    if x <? 0 then "0"%char :: "."%char :: digs (Z.to_nat (- x - 1)) 0 ++ digs l m
    else if Z.of_nat l <=? x + 1 then digs (Z.to_nat (x + 1)) (m * 10 ^ (x + 1 - Z.of_nat l))
    else pointed m l (l - Z.to_nat (x + 1))
  else pointed m l (pred l) ++ "e"%char :: (if x <? 0 then "-"%char else "+"%char) :: digs 2 (Z.abs x).
(** operator<<(float) (library), Jzon.cpp 373-379. *)
Definition showFloat (v : Z) : str :=
  if v =? 0 then lit "0" else if v <? 0 then "-"%char :: showPos (- v) else showPos v.

(** *** Reading: sstr >> val, Jzon.cpp 303. *)
(** The digits at the start of [s]: their value after [acc], how many, and what follows. *)
Fixpoint span (acc : Z) (n : Z) (s : str) : Z * Z * str :=
  match s with
  | [] => (acc, n, [])
  | c :: t => match digit c with Some d => span (10 * acc + d) (n + 1) t | None => (acc, n, s) end
  end.
(** operator>>(float&) (library), Jzon.cpp 293-309. *)
Definition exponent (s : str) : Z :=
  match s with
  | c :: t => if is c "e" || is c "E"
              then match t with
                   | d :: u => if is d "-" then - fst (fst (span 0 0 u)) else if is d "+" then fst (fst (span 0 0 u)) else fst (fst (span 0 0 t))
                   | [] => 0
                   end
              else 0
  | [] => 0
  end.
(** operator>>(float&) (library), Jzon.cpp 293-309. *)
Definition readPos (s : str) : Z :=
  let '(a, n, r) := span 0 0 s in
  let '(b, f, r) := match r with c :: t => if is c "." then span a 0 t else (a, 0, r) | [] => (a, 0, r) end in
  if n + f =? 0 then 0 else Z.min fltMax (ofDec b (exponent r - f)).
(** operator>>(float&) (library), Jzon.cpp 293-309. *)
Definition readFloat (s : str) : Z :=
  match s with [] => 0 | c :: t => if is c "-" then - readPos t else readPos s end.

(** Value(float), Jzon.cpp 373-379, and ToFloat, Jzon.cpp 293-309. None: an exception. *)
Definition floatNode (v : Z) : node := Val VT_NUMBER (showFloat v).
(** Jzon.cpp 293-309. *)
Definition toFloat (n : node) : option Z :=
  match n with Val VT_NULL _ => Some 0 | Val VT_NUMBER s => Some (readFloat s) | _ => None end.
