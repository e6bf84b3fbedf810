(** Specification vocabulary for the numeric and boolean properties; independent of the
    model's parsing functions. *)
From Coq Require Import String Ascii List Bool ZArith NArith.
From Coq Require Import Floats.SpecFloat.
From Coq Require Decimal DecimalString Hexadecimal HexadecimalString.
From Verif Require Import PyBase Primitives.
Import ListNotations.
Open Scope string_scope.

(** The integer denoted by a float equals [z] (exact comparison, as Python's == does). *)
Definition float_is (f : spec_float) (z : Z) : Prop :=
  match f with
  | S754_zero _ => z = 0%Z
  | S754_finite s m e =>
      let v := if s then Zneg m else Zpos m in
      if (0 <=? e)%Z then (z = v * 2 ^ e)%Z else (z * 2 ^ (- e) = v)%Z
  | _ => False
  end.

(** Python's [v == z] for a stored number and an int. *)
Definition numv_is (v : numv) (z : Z) : Prop :=
  match v with
  | NInt a => a = z
  | NBool b => z = if b then 1%Z else 0%Z
  | NFloat f => float_is f z
  end.

(** The number is below zero. *)
Definition numv_negative (v : numv) : Prop :=
  match v with
  | NInt a => (a < 0)%Z
  | NBool _ => False
  | NFloat (S754_finite true _ _) => True
  | NFloat (S754_infinity true) => True
  | NFloat _ => False
  end.

(** Decimal integer texts: optional sign and digits (leading zeros allowed). *)
Inductive sign := NoSign | Plus | Minus.
Definition sign_text (s : sign) : string :=
  match s with NoSign => "" | Plus => "+" | Minus => "-" end.
Definition sign_apply (s : sign) (z : Z) : Z := match s with Minus => (- z)%Z | _ => z end.
Definition dec_text (s : sign) (u : Decimal.uint) : string :=
  sign_text s ++ DecimalString.NilEmpty.string_of_uint u.
Definition dec_value (s : sign) (u : Decimal.uint) : Z := sign_apply s (Z.of_uint u).

(** Hexadecimal texts 0x... in any letter case. *)
Definition hex_text (t : string) (u : Hexadecimal.uint) : Prop :=
  lower t = "0x" ++ HexadecimalString.NilEmpty.string_of_uint u.

(** Binary texts 0b... *)
Definition bits_text (bs : list bool) : string :=
  fold_right (fun (b : bool) s => String (if b then "1"%char else "0"%char) s) "" bs.
Definition bits_value (bs : list bool) : Z :=
  fold_left (fun acc (b : bool) => (2 * acc + (if b then 1 else 0))%Z) bs 0%Z.

(** ** Grammar of numeric literals (for acceptance/rejection) *)

Definition nonempty (s : string) : Prop := s <> "".

(** digits, possibly with single underscores between digits *)
Inductive GroupedDigits : string -> Prop :=
| GD_one : forall d, nonempty d -> all_chars is_digit d = true -> GroupedDigits d
| GD_more : forall d r, nonempty d -> all_chars is_digit d = true -> GroupedDigits r ->
    GroupedDigits (d ++ "_" ++ r).

Inductive HexLit : string -> Prop :=
| HexLit_intro : forall x d, x = "x"%char \/ x = "X"%char -> nonempty d ->
    all_chars is_hex d = true -> HexLit (String "0" (String x d)).

Inductive BinLit : string -> Prop :=
| BinLit_intro : forall x d, x = "b"%char \/ x = "B"%char -> nonempty d ->
    all_chars is_bit d = true -> BinLit (String "0" (String x d)).

Inductive ExpPart : string -> Prop :=
| EP_none : ExpPart ""
| EP_some : forall e sg d, e = "e"%char \/ e = "E"%char -> nonempty d -> all_chars is_digit d = true ->
    ExpPart (String e (sign_text sg ++ d)).

Definition newline : string := String (ascii_of_N 10) "".

Inductive FloatLit : string -> Prop :=
| FL_int : forall sg i e nl, nonempty i -> all_chars is_digit i = true -> ExpPart e ->
    nl = "" \/ nl = newline -> FloatLit (sign_text sg ++ i ++ e ++ nl)
| FL_frac : forall sg i f e nl, (nonempty i \/ nonempty f) ->
    all_chars is_digit i = true -> all_chars is_digit f = true -> ExpPart e ->
    nl = "" \/ nl = newline -> FloatLit (sign_text sg ++ i ++ "." ++ f ++ e ++ nl).

Inductive IntLit : string -> Prop :=
| IL_intro : forall w1 sg d w2, all_chars is_space w1 = true -> all_chars is_space w2 = true ->
    GroupedDigits d -> IntLit (w1 ++ sign_text sg ++ d ++ w2).

(** What a user calls a number in this library. *)
Inductive NumLit : string -> Prop :=
| NL_true : NumLit "true"
| NL_false : NumLit "false"
| NL_hex : forall s, HexLit s -> NumLit s
| NL_bin : forall s, BinLit s -> NumLit s
| NL_float : forall s, FloatLit s -> NumLit s
| NL_int : forall s, IntLit s -> NumLit s.

(** ** Booleans: trimmed text and its truth value *)
Inductive BoolText : string -> bool -> Prop :=
| BT_true : forall t, lower t = "true" -> BoolText t true
| BT_false : forall t, lower t = "false" -> BoolText t false
| BT_int : forall sg d, GroupedDigits d ->
    BoolText (sign_text sg ++ d)
      (negb (all_chars (fun c => Ascii.eqb c "0" || Ascii.eqb c "_")%bool d)).
