(** Model of the primitive value classes of
    /repo/src/armodel/models/M2/AUTOSARTemplates/GenericStructure/GeneralTemplateClasses/PrimitiveTypes.py
    (called PrimitiveTypes.py below). *)
From Coq Require Import String Ascii List Bool ZArith NArith.
From Coq Require Import Floats.SpecFloat.
From Coq Require Decimal DecimalString.
From Verif Require Import PyBase.
Import ListNotations.
Open Scope string_scope.

(** Python values that reach a setValue call.  [POther] stands for any object that is
    not None/bool/int/float/str. *)
Inductive pyval : Type :=
| PNone | PBool (b : bool) | PInt (z : Z) | PFloat (f : spec_float) | PStr (s : string) | POther.

(** What [_value] of a numerical can hold: int, float (IEEE binary64) or bool (a bool is
    an int instance in Python and is stored as is). *)
Inductive numv : Type := NInt (z : Z) | NFloat (f : spec_float) | NBool (b : bool).

(** ** int(...) and float(...) of the Python runtime *)

Definition digit_val (c : ascii) : Z :=
  if is_digit c then Z.of_N (code c) - 48
  else if in_range 97 102 c then Z.of_N (code c) - 87
  else Z.of_N (code c) - 55.

(** int(s, b) on a string that only has digits of the base. *)
Fixpoint base_val (b : Z) (acc : Z) (s : string) : Z :=
  match s with
  | EmptyString => acc
  | String c s' => base_val b (acc * b + digit_val c) s'
  end.

Definition take_sign (s : string) : bool * string :=
  match s with
  | String "-" r => (true, r)
  | String "+" r => (false, r)
  | _ => (false, s)
  end.

(** digits with single underscores between digits, as accepted by int() *)
Fixpoint int_digits (s : string) (prev_digit : bool) (acc : Z) : option Z :=
  match s with
  | EmptyString => if prev_digit then Some acc else None
  | String c r =>
      if is_digit c then int_digits r true (acc * 10 + digit_val c)
      else if (Ascii.eqb c "_" && prev_digit)%bool then int_digits r false acc
      else None
  end.

Definition apply_sign (neg : bool) (z : Z) : Z := if neg then Z.opp z else z.

(** int(s): surrounding whitespace, sign, digits.  None = ValueError.
    Simplification: CPython's limit on the number of digits (4300) is not modelled. *)
Definition py_int (s : string) : option Z :=
  let (neg, r) := take_sign (strip s) in
  option_map (apply_sign neg) (int_digits r false 0).

(** str(z) for an int *)
Definition py_str_int (z : Z) : string :=
  DecimalString.NilZero.string_of_int (Z.to_int z).

(** Correctly rounded (nearest, ties to even) binary64 of m * 10^e, m >= 0. *)
Definition dec_to_float (neg : bool) (m : Z) (e : Z) : spec_float :=
  match m with
  | Zpos p =>
      if (0 <=? e)%Z then binary_normalize 53 1024 (apply_sign neg (m * 10 ^ e)) 0 neg
      else match (10 ^ (- e))%Z with
           | Zpos q => SFdiv 53 1024 (S754_finite neg p 0) (S754_finite false q 0)
           | _ => S754_nan
           end
  | _ => S754_zero neg
  end.

(** float(z) for an int; None = OverflowError *)
Definition py_float_of_int (z : Z) : option spec_float :=
  match binary_normalize 53 1024 z 0 false with
  | S754_infinity _ => None
  | f => Some f
  end.

(** ** PrimitiveTypes.py:96-126  ARNumerical._convertStringToNumberValue *)

(** line 115: re.match(r"0x([0-9a-f]+)", value, re.I), group 1 *)
Definition match_hex (s : string) : option string :=
  match s with
  | String "0" (String x r) =>
      if (Ascii.eqb x "x" || Ascii.eqb x "X")%bool then
        let (d, _) := span is_hex r in
        if is_empty d then None else Some d
      else None
  | _ => None
  end.

(** line 118: re.match(r"0b([\d]+)", value, re.I), group 1 *)
Definition match_bin (s : string) : option string :=
  match s with
  | String "0" (String x r) =>
      if (Ascii.eqb x "b" || Ascii.eqb x "B")%bool then
        let (d, _) := span is_digit r in
        if is_empty d then None else Some d
      else None
  | _ => None
  end.

Definition is_bit (c : ascii) : bool := (Ascii.eqb c "0" || Ascii.eqb c "1")%bool.

(** line 121, the '$' of the regex: end, or a final newline *)
Definition at_end (s : string) : bool :=
  match s with
  | EmptyString => true
  | String c EmptyString => N.eqb (code c) 10
  | _ => false
  end.

(** line 121: ([eE][-+]?\d+)?$ ; result = exponent *)
Definition match_exp (s : string) : option Z :=
  if at_end s then Some 0%Z else
  match s with
  | String c r =>
      if (Ascii.eqb c "e" || Ascii.eqb c "E")%bool then
        let (neg, r1) := take_sign r in
        let (d, r2) := span is_digit r1 in
        if (negb (is_empty d) && at_end r2)%bool
        then Some (apply_sign neg (base_val 10 0 d)) else None
      else None
  | EmptyString => None
  end.

(** line 121: [-+]? then digits, optional dot and digits, or dot and digits, then optional exponent, end;
    result = (negative, integer digits, fraction digits, exponent) *)
Definition match_decimal (s : string) : option (bool * string * string * Z) :=
  let (neg, r) := take_sign s in
  let (ip, r1) := span is_digit r in
  if is_empty ip then
    match r1 with
    | String "." r2 =>
        let (fp, r3) := span is_digit r2 in
        if is_empty fp then None
        else option_map (fun e => (neg, ip, fp, e)) (match_exp r3)
    | _ => None
    end
  else
    match r1 with
    | String "." r2 =>
        let (fp, r3) := span is_digit r2 in
        option_map (fun e => (neg, ip, fp, e)) (match_exp r3)
    | _ => option_map (fun e => (neg, ip, EmptyString, e)) (match_exp r1)
    end.

(** line 123: float(value) of a text accepted by the decimal regex *)
Definition decimal_float (d : bool * string * string * Z) : spec_float :=
  let '(neg, ip, fp, e) := d in
  dec_to_float neg (base_val 10 0 (ip ++ fp)) (e - Z.of_nat (String.length fp)).

(** lines 109-126; the bare except turns every failure into ValueError *)
Definition convert (value : string) : res numv :=
  if String.eqb value "true" then Ok (NInt 1)
  else if String.eqb value "false" then Ok (NInt 0)
  else match match_hex value with
  | Some d => Ok (NInt (base_val 16 0 d))
  | None =>
    match match_bin value with
    | Some d => if all_chars is_bit d then Ok (NInt (base_val 2 0 d)) else Raise ValueError
    | None =>
      match match_decimal value with
      | Some d => Ok (NFloat (decimal_float d))
      | None => match py_int value with Some z => Ok (NInt z) | None => Raise ValueError end
      end
    end
  end.

(** ** Objects *)

(** PrimitiveTypes.py:26-29 and 90-94: attributes of an ARNumerical (ARFloat, Integer,
    PositiveInteger, TimeValue have the same attributes). *)
Record numerical : Type := mkNum {
  n_ts : option string; n_uuid : option string;
  n_value : option numv; n_label : option string; n_text : option string }.

Definition num_new : numerical := mkNum None None None None None.

Definition with_value (n : numerical) (v : numv) : numerical :=
  mkNum (n_ts n) (n_uuid n) (Some v) (n_label n) (n_text n).
Definition with_text (n : numerical) (t : string) : numerical :=
  mkNum (n_ts n) (n_uuid n) (n_value n) (n_label n) (Some t).

(** Shared str branch of the value setters (lines 137-139, 211-213, 556-558): the text is
    stored first, then the conversion may raise. *)
Definition set_str (n : numerical) (s : string) : numerical * option exn :=
  let n1 := with_text n s in
  match convert s with
  | Ok v => (with_value n1 v, None)
  | Raise e => (n1, Some e)
  end.

(** PrimitiveTypes.py:60-62 (None is a no-op) + 133-141 ARNumerical.value setter *)
Definition num_set (n : numerical) (v : pyval) : numerical * option exn :=
  match v with
  | PNone => (n, None)
  | PBool b => (with_value n (NBool b), None)
  | PInt z => (with_value n (NInt z), None)
  | PStr s => set_str n s
  | PFloat _ | POther => (n, Some ValueError)
  end.

(** PrimitiveTypes.py:205-215 ARFloat.value setter (val * 1.0 on an int or bool) *)
Definition float_set (n : numerical) (v : pyval) : numerical * option exn :=
  match v with
  | PNone => (n, None)
  | PFloat f => (with_value n (NFloat f), None)
  | PBool b => (with_value n (NFloat (binary_normalize 53 1024 (if b then 1 else 0) 0 false)), None)
  | PInt z => match py_float_of_int z with
              | Some f => (with_value n (NFloat f), None)
              | None => (n, Some OverflowError)
              end
  | PStr s => set_str n s
  | POther => (n, Some ValueError)
  end.

(** PrimitiveTypes.py:550-560 ARPositiveInteger.value setter *)
Definition pos_set (n : numerical) (v : pyval) : numerical * option exn :=
  match v with
  | PNone => (n, None)
  | PBool b => (with_value n (NBool b), None)
  | PInt z => if (z <? 0)%Z then (n, Some ValueError) else (with_value n (NInt z), None)
  | PStr s => set_str n s
  | PFloat _ | POther => (n, Some ValueError)
  end.

(** str(_value); [repr] is Python's float repr, which the model leaves abstract. *)
Definition numv_str (repr : spec_float -> string) (v : numv) : string :=
  match v with
  | NInt z => py_str_int z
  | NFloat f => repr f
  | NBool b => if b then "True" else "False"
  end.

(** PrimitiveTypes.py:143-147 and 217-221 __str__ (getText is str(self), line 71) *)
Definition num_str (repr : spec_float -> string) (n : numerical) : string :=
  match n_text n with
  | Some t => t
  | None => match n_value n with Some v => numv_str repr v | None => "None" end
  end.

(** PrimitiveTypes.py:158-171 setShortLabel *)
Definition num_setShortLabel (n : numerical) (v : option string) : numerical :=
  match v with
  | Some l => mkNum (n_ts n) (n_uuid n) (n_value n) (Some l) (n_text n)
  | None => n
  end.

(** ** PrimitiveTypes.py:563-639 ARBoolean *)
Record boolean : Type := mkBool {
  b_ts : option string; b_uuid : option string; b_value : option bool; b_text : option string }.

Definition bool_new : boolean := mkBool None None None None.

(** 582-594 *)
Definition num_to_bool (z : Z) : bool := if (z =? 0)%Z then false else true.

(** 596-612; int(value) may raise ValueError *)
Definition str_to_bool (value : string) : res bool :=
  let v := lower value in
  if (String.eqb v "true" || String.eqb v "1")%bool then Ok true
  else if (String.eqb v "false" || String.eqb v "0")%bool then Ok false
  else match py_int v with Some z => Ok (num_to_bool z) | None => Raise ValueError end.

(** 619-630 (setter) and 60-62 (None guard) *)
Definition bool_set (b : boolean) (v : pyval) : boolean * option exn :=
  match v with
  | PNone => (b, None)
  | PBool x => (mkBool (b_ts b) (b_uuid b) (Some x) (b_text b), None)
  | PInt z => (mkBool (b_ts b) (b_uuid b) (Some (num_to_bool z)) (Some (py_str_int z)), None)
  | PStr s =>
      match str_to_bool (strip s) with
      | Ok x => (mkBool (b_ts b) (b_uuid b) (Some x) (Some (strip s)), None)
      | Raise e => (b, Some e)
      end
  | PFloat _ | POther => (b, Some ValueError)
  end.

(** 632-639 __str__ *)
Definition bool_str (b : boolean) : string :=
  match b_text b with
  | Some t => t
  | None => match b_value b with Some true => "true" | _ => "false" end
  end.

(** ** PrimitiveTypes.py:255-295 ARLiteral (and its plain subclasses) *)
Record literal : Type := mkLit {
  l_ts : option string; l_uuid : option string; l_value : option string }.

Definition lit_new : literal := mkLit None None None.

(** 278-283 with the guard of 60-62; [str_other] is str() of a non-string argument *)
Definition lit_set (l : literal) (v : pyval) (str_other : pyval -> string) : literal :=
  match v with
  | PNone => l
  | PStr s => mkLit (l_ts l) (l_uuid l) (Some s)
  | _ => mkLit (l_ts l) (l_uuid l) (Some (str_other v))
  end.

(** 271-276 and 285-286 *)
Definition lit_str (l : literal) : string :=
  match l_value l with Some s => s | None => "" end.

(** ** PrimitiveTypes.py:1009-1113 RefType *)
Record reftype : Type := mkRef {
  r_base : option string; r_dest : option string; r_value : option string }.

Definition ref_new : reftype := mkRef None None None.

(** Longest match of [\w\/]+ then "/" then (\w+) inside the maximal [\w\/] run; [seen] tells
    whether at least one character precedes (the "+").  The regex engine tries the longest
    [\w\/]+ first, i.e. the last usable "/". *)
Fixpoint last_segment (seen : bool) (run : string) : option string :=
  match run with
  | EmptyString => None
  | String c r =>
      match last_segment true r with
      | Some g => Some g
      | None =>
          if (seen && Ascii.eqb c "/")%bool then
            let (w, _) := span is_word r in
            if is_empty w then None else Some w
          else None
      end
  end.

(** 1110: re.match(r"\/[\w\/]+\/(\w+)", value), group 1 *)
Definition match_short (s : string) : option string :=
  match s with
  | String "/" r =>
      let (run, _) := span (fun c => (is_word c || Ascii.eqb c "/")%bool) r in
      last_segment false run
  | _ => None
  end.

(** 1098-1113 getShortValue *)
Definition ref_getShortValue (r : reftype) : res string :=
  match r_value r with
  | None => Raise ValueError
  | Some v => match match_short v with Some g => Ok g | None => Ok v end
  end.

(** ** PrimitiveTypes.py:938-1006 Limit *)
Record limit : Type := mkLimit {
  li_ts : option string; li_uuid : option string;
  li_interval : option literal; li_value : option string }.

Definition limit_new : limit := mkLimit None None None None.

(** ** Histories of calls on one numerical object *)

(** The three value setters that differ: ARNumerical (also Integer, UnlimitedInteger),
    ARFloat (Float, TimeValue), ARPositiveInteger (PositiveInteger, PositiveUnlimitedInteger). *)
Inductive num_kind := KNum | KFloat | KPos.
Definition num_setValue (k : num_kind) : numerical -> pyval -> numerical * option exn :=
  match k with KNum => num_set | KFloat => float_set | KPos => pos_set end.

(** PrimitiveTypes.py:27-28: plain attributes of ARType, assigned directly
    (n.timestamp = t, n.uuid = u) *)
Definition num_setTimestamp (n : numerical) (v : option string) : numerical :=
  mkNum v (n_uuid n) (n_value n) (n_label n) (n_text n).
Definition num_setUuid (n : numerical) (v : option string) : numerical :=
  mkNum (n_ts n) v (n_value n) (n_label n) (n_text n).

Inductive num_op :=
| OpSetValue (v : pyval) | OpShortLabel (l : option string)
| OpTimestamp (t : option string) | OpUuid (u : option string).

Definition num_step (k : num_kind) (n : numerical) (o : num_op) : numerical :=
  match o with
  | OpSetValue v => fst (num_setValue k n v)
  | OpShortLabel l => num_setShortLabel n l
  | OpTimestamp t => num_setTimestamp n t
  | OpUuid u => num_setUuid n u
  end.
Definition num_run (k : num_kind) (n : numerical) (os : list num_op) : numerical :=
  fold_left (num_step k) os n.

Definition bool_run (b : boolean) (vs : list pyval) : boolean :=
  fold_left (fun x v => fst (bool_set x v)) vs b.
