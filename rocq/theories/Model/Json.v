(** JSON text as written by [serde_json::to_string] and read by
    [serde_json::from_str], which /repo/src/redis/mcaptcha_redis.rs:120, 128,
    175, 190 use for what they exchange with the Redis module (and users of the
    Serialize/Deserialize derives for whatever they persist). A model of that
    library, not of code in /repo.
    Simplifications of the reader: numbers that are not plain unsigned integers
    are recognised but their value is not kept ([JOther]); nor is that of what
    has a \u escape for one half of a surrogate pair ([JOdd]), which the library
    accepts only inside members it ignores; there is no nesting limit (the library
    has one of 128 for what it does not ignore, and the types used here nest 4
    deep). *)
From Coq Require Import Ascii Decimal DecimalString.
From Verif Require Import Model.Base.

(** The values of [serde_json] (library), used at mcaptcha_redis.rs:120, 128, 175, 191. *)
Inductive json :=
| JNull
| JBool (b : bool)
| JNum (n : N)
| JOther
| JOdd
| JStr (s : string)
| JArr (l : list json)
| JObj (l : list (string * json)).

(** Characters by code. No code of its own. *)
Definition chr (n : N) : ascii := ascii_of_N n.
Definition code (c : ascii) : N := N_of_ascii c.
Definition one (n : N) : string := String (chr n) EmptyString.

(** ** Writing *)
(** serde_json (library): [format_escaped_str_contents], used at mcaptcha_redis.rs:128, 175. *)
Definition hex (n : N) : ascii := if n <? 10 then chr (48 + n) else chr (87 + n).
(** serde_json's [format_escaped_str_contents]. Used at mcaptcha_redis.rs:128, 175. *)
Definition escape_char (c : ascii) : string :=
  let n := code c in
  if n =? 34 then one 92 +:+ one 34
  else if n =? 92 then one 92 +:+ one 92
  else if n =? 8 then one 92 +:+ "b"
  else if n =? 9 then one 92 +:+ "t"
  else if n =? 10 then one 92 +:+ "n"
  else if n =? 12 then one 92 +:+ "f"
  else if n =? 13 then one 92 +:+ "r"
  else if n <? 32 then one 92 +:+ "u00" +:+ String (hex (n / 16)) (String (hex (n mod 16)) EmptyString)
  else String c EmptyString.
Fixpoint escape (s : string) : string :=
  match s with
  | EmptyString => EmptyString
  | String c r => escape_char c +:+ escape r
  end.
Definition print_str (s : string) : string := one 34 +:+ escape s +:+ one 34.
Definition print_num (n : N) : string := NilEmpty.string_of_uint (N.to_uint n).
Fixpoint print (v : json) : string :=
  match v with
  | JNull => "null"
  | JBool true => "true"
  | JBool false => "false"
  | JNum n => print_num n
  | JOther => "0.5"
  | JOdd => one 34 +:+ one 92 +:+ "udc00" +:+ one 34
  | JStr s => print_str s
  | JArr l =>
      "[" +:+ (fix elems (l : list json) : string :=
         match l with
         | [] => EmptyString
         | [v] => print v
         | v :: r => print v +:+ "," +:+ elems r
         end) l +:+ "]"
  | JObj l =>
      "{" +:+ (fix members (l : list (string * json)) : string :=
         match l with
         | [] => EmptyString
         | [(k, v)] => print_str k +:+ ":" +:+ print v
         | (k, v) :: r => print_str k +:+ ":" +:+ print v +:+ "," +:+ members r
         end) l +:+ "}"
  end.

(** ** Reading *)
(** serde_json (library): [from_str], used at mcaptcha_redis.rs:120, 191. *)
Definition is_ws (c : ascii) : bool :=
  let n := code c in (n =? 32) || (n =? 9) || (n =? 10) || (n =? 13).
Fixpoint skip_ws (s : string) : string :=
  match s with
  | String c r => if is_ws c then skip_ws r else s
  | EmptyString => s
  end.
Definition unhex (c : ascii) : option N :=
  let n := code c in
  if (48 <=? n) && (n <=? 57) then Some (n - 48)
  else if (97 <=? n) && (n <=? 102) then Some (n - 87)
  else if (65 <=? n) && (n <=? 70) then Some (n - 55)
  else None.
(** A code point in UTF-8; a half of a surrogate pair is none. *)
Definition utf8 (n : N) : option string :=
  if n <? 128 then Some (one n)
  else if n <? 2048 then Some (one (192 + n / 64) +:+ one (128 + n mod 64))
  else if (55296 <=? n) && (n <=? 57343) then None
  else if n <? 65536 then Some (one (224 + n / 4096) +:+ one (128 + (n / 64) mod 64) +:+ one (128 + n mod 64))
  else Some (one (240 + n / 262144) +:+ one (128 + (n / 4096) mod 64) +:+ one (128 + (n / 64) mod 64) +:+
             one (128 + n mod 64)).
(** Four hexadecimal digits. serde_json (library): [decode_hex_escape], used at mcaptcha_redis.rs:120, 191. *)
Definition unhex4 (a b c d : ascii) : option N :=
  match unhex a, unhex b, unhex c, unhex d with
  | Some a, Some b, Some c, Some d => Some (((a * 16 + b) * 16 + c) * 16 + d)
  | _, _, _, _ => None
  end.
(** The rest of a string literal after its opening quote. serde_json (library), used at mcaptcha_redis.rs:120,
    191. *)
Fixpoint parse_str (s : string) : option (string * string) :=
  match s with
  | EmptyString => None
  | String c r =>
      if code c =? 34 then Some (EmptyString, r)
      else if code c =? 92 then
        match r with
        | String e r1 =>
            let simple (n : N) :=
              match parse_str r1 with Some (t, rest) => Some (one n +:+ t, rest) | None => None end in
            if code e =? 34 then simple 34
            else if code e =? 92 then simple 92
            else if code e =? 47 then simple 47
            else if code e =? 98 then simple 8
            else if code e =? 116 then simple 9
            else if code e =? 110 then simple 10
            else if code e =? 102 then simple 12
            else if code e =? 114 then simple 13
            else if code e =? 117 then
              match r1 with
              | String a (String b (String c' (String d r2))) =>
                  match unhex4 a b c' d with
                  | Some hi =>
                      if (55296 <=? hi) && (hi <=? 56319) then
                        match r2 with
                        | String k (String v (String a' (String b' (String c'' (String d' r3))))) =>
                            if (code k =? 92) && (code v =? 117) then
                              match unhex4 a' b' c'' d' with
                              | Some lo =>
                                  if (56320 <=? lo) && (lo <=? 57343) then
                                    match utf8 (65536 + (hi - 55296) * 1024 + (lo - 56320)), parse_str r3 with
                                    | Some u, Some (t, rest) => Some (u +:+ t, rest)
                                    | _, _ => None
                                    end
                                  else None
                              | None => None
                              end
                            else None
                        | _ => None
                        end
                      else
                        match utf8 hi, parse_str r2 with
                        | Some u, Some (t, rest) => Some (u +:+ t, rest)
                        | _, _ => None
                        end
                  | None => None
                  end
              | _ => None
              end
            else None
        | EmptyString => None
        end
      else if code c <? 32 then None
      else match parse_str r with Some (t, rest) => Some (String c t, rest) | None => None end
  end.

(** The same, for a string whose value does not matter: a half of a surrogate pair is fine. serde_json
    (library): [ignore_str], used at mcaptcha_redis.rs:120, 191. *)
Definition is_short (e : ascii) : bool :=
  let n := code e in
  (n =? 34) || (n =? 92) || (n =? 47) || (n =? 98) || (n =? 116) || (n =? 110) || (n =? 102) || (n =? 114).
Fixpoint skip_str (s : string) : option string :=
  match s with
  | EmptyString => None
  | String c r =>
      if code c =? 34 then Some r
      else if code c =? 92 then
        match r with
        | String e r1 =>
            if is_short e then skip_str r1
            else if code e =? 117 then
              match r1 with
              | String a (String b (String c' (String d r2))) =>
                  match unhex4 a b c' d with Some _ => skip_str r2 | None => None end
              | _ => None
              end
            else None
        | EmptyString => None
        end
      else if code c <? 32 then None
      else skip_str r
  end.
(** A string literal after its opening quote, with its value if it has one. As above, 120, 191. *)
Definition take_str (s : string) : option (option string * string) :=
  match parse_str s with
  | Some (t, rest) => Some (Some t, rest)
  | None => match skip_str s with Some rest => Some (None, rest) | None => None end
  end.
(** An object is one by the values of all its keys. As above, 120, 191. *)
Definition keyed (x : option string * json) : option (string * json) :=
  match x.1 with Some k => Some (k, x.2) | None => None end.
Definition object (l : list (option string * json)) : json :=
  match mapM keyed l with Some l => JObj l | None => JOdd end.

(** serde_json (library): numbers, used at mcaptcha_redis.rs:120, 191. *)
Definition is_digit (c : ascii) : bool := (48 <=? code c) && (code c <=? 57).
Definition digit (c : ascii) (d : uint) : uint :=
  match code c with
  | 48 => D0 d | 49 => D1 d | 50 => D2 d | 51 => D3 d | 52 => D4 d
  | 53 => D5 d | 54 => D6 d | 55 => D7 d | 56 => D8 d | _ => D9 d
  end.
(** As above, 120, 191. *)
Fixpoint take_uint (s : string) : uint * string :=
  match s with
  | String c r => if is_digit c then let '(d, rest) := take_uint r in (digit c d, rest) else (Nil, s)
  | EmptyString => (Nil, s)
  end.
(** An integer part has no leading zero. serde_json (library), used at mcaptcha_redis.rs:120, 191. *)
Definition int_ok (d : uint) : bool :=
  match d with Nil => false | D0 Nil => true | D0 _ => false | _ => true end.
(** Fraction and exponent. serde_json (library), used at mcaptcha_redis.rs:120, 191. *)
Definition take_frac (s : string) : option (bool * string) :=
  match s with
  | String c r =>
      if code c =? 46 then match take_uint r with (Nil, _) => None | (_, rest) => Some (true, rest) end
      else Some (false, s)
  | EmptyString => Some (false, s)
  end.
Definition take_exp (s : string) : option (bool * string) :=
  match s with
  | String c r =>
      if (code c =? 101) || (code c =? 69) then
        let r1 := match r with
                  | String g r1 => if (code g =? 43) || (code g =? 45) then r1 else r
                  | EmptyString => r
                  end in
        match take_uint r1 with (Nil, _) => None | (_, rest) => Some (true, rest) end
      else Some (false, s)
  | EmptyString => Some (false, s)
  end.
Definition parse_num (neg : bool) (s : string) : option (json * string) :=
  let '(d, r) := take_uint s in
  if int_ok d then
    match take_frac r with
    | Some (f, r1) =>
        match take_exp r1 with
        | Some (e, r2) => Some (if neg || f || e then JOther else JNum (N.of_uint d), r2)
        | None => None
        end
    | None => None
    end
  else None.

(** serde_json (library): [true], [false], [null], used at mcaptcha_redis.rs:120, 191. *)
Fixpoint prefixed (pre s : string) : option string :=
  match pre, s with
  | EmptyString, _ => Some s
  | String a p, String b r => if Ascii.eqb a b then prefixed p r else None
  | _, _ => None
  end.
Definition keyword (pre : string) (v : json) (s : string) : option (json * string) :=
  match prefixed pre s with Some r => Some (v, r) | None => None end.

(** A value; the elements of a non-empty array up to and including the closing bracket; the members of a
    non-empty object likewise. serde_json (library), used at mcaptcha_redis.rs:120, 191. *)
Fixpoint parse_value (fuel : nat) (s : string) : option (json * string) :=
  match fuel with
  | O => None
  | S f =>
      match skip_ws s with
      | EmptyString => None
      | String c r =>
          let s' := String c r in
          if code c =? 34 then
            match take_str r with
            | Some (Some t, rest) => Some (JStr t, rest)
            | Some (None, rest) => Some (JOdd, rest)
            | None => None
            end
          else if code c =? 91 then
            match skip_ws r with
            | String d r1 =>
                if code d =? 93 then Some (JArr [], r1)
                else match parse_elems f r with Some (l, rest) => Some (JArr l, rest) | None => None end
            | EmptyString => None
            end
          else if code c =? 123 then
            match skip_ws r with
            | String d r1 =>
                if code d =? 125 then Some (JObj [], r1)
                else match parse_members f r with Some (l, rest) => Some (object l, rest) | None => None end
            | EmptyString => None
            end
          else if code c =? 45 then parse_num true r
          else if is_digit c then parse_num false s'
          else if code c =? 116 then keyword "true" (JBool true) s'
          else if code c =? 102 then keyword "false" (JBool false) s'
          else if code c =? 110 then keyword "null" JNull s'
          else None
      end
  end
with parse_elems (fuel : nat) (s : string) : option (list json * string) :=
  match fuel with
  | O => None
  | S f =>
      match parse_value f s with
      | Some (v, r) =>
          match skip_ws r with
          | String c r1 =>
              if code c =? 93 then Some ([v], r1)
              else if code c =? 44 then
                match parse_elems f r1 with Some (l, rest) => Some (v :: l, rest) | None => None end
              else None
          | EmptyString => None
          end
      | None => None
      end
  end
with parse_members (fuel : nat) (s : string) : option (list (option string * json) * string) :=
  match fuel with
  | O => None
  | S f =>
      match skip_ws s with
      | String q r0 =>
          if code q =? 34 then
            match take_str r0 with
            | Some (k, r1) =>
                match skip_ws r1 with
                | String e r2 =>
                    if code e =? 58 then
                      match parse_value f r2 with
                      | Some (v, r) =>
                          match skip_ws r with
                          | String c r3 =>
                              if code c =? 125 then Some ([(k, v)], r3)
                              else if code c =? 44 then
                                match parse_members f r3 with
                                | Some (l, rest) => Some ((k, v) :: l, rest) | None => None end
                              else None
                          | EmptyString => None
                          end
                      | None => None
                      end
                    else None
                | EmptyString => None
                end
            | None => None
            end
          else None
      | EmptyString => None
      end
  end.
(** [serde_json::from_str] up to the interpretation of the value: nothing but white space may follow. Used at
    mcaptcha_redis.rs:120, 191. *)
Definition parse (s : string) : option json :=
  match parse_value (S (String.length s)) s with
  | Some (v, r) => match skip_ws r with EmptyString => Some v | _ => None end
  | None => None
  end.
