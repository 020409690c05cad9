(** What a JSON text is and which value it stands for (RFC 8259), and which
    values stand for which messages. Independent of the reader in Model/Json.v:
    only its type of values is used. *)
From Coq Require Import Ascii.
From Verif Require Import Model.Base Model.Defense Model.MCaptcha Model.HashCache Model.Pow Model.Json Model.Serde.

Definition quote : ascii := "034"%char.
Definition backslash : ascii := "092"%char.
Definition lit (c : ascii) : string := String c EmptyString.

(** White space. *)
Inductive white : string -> Prop :=
| white_none : white ""
| white_more c s : In c [" "; "009"; "010"; "013"]%char -> white s -> white (String c s).

(** Digits, and the number a digit sequence stands for. *)
Definition digit_of (c : ascii) (n : N) : Prop := n < 10 /\ N_of_ascii c = 48 + n.
Inductive digits : string -> Prop :=
| digits_one c n : digit_of c n -> digits (lit c)
| digits_more c n s : digit_of c n -> digits s -> digits (String c s).
Fixpoint decimal (acc : N) (s : string) : N :=
  match s with
  | EmptyString => acc
  | String c r => decimal (acc * 10 + (N_of_ascii c - 48)) r
  end.
Definition integer (s : string) : Prop :=
  digits s /\ (s = "0"%string \/ exists c r, s = String c r /\ c <> "0"%char).
Definition fraction (s : string) : Prop := exists r, digits r /\ s = ("." +:+ r).
Definition exponent (s : string) : Prop :=
  exists e g r, In e ["e"; "E"]%char /\ In g [""; "+"; "-"]%string /\ digits r /\ s = (lit e +:+ g +:+ r).

(** Hexadecimal digits of either case, four of them. *)
Definition hex_of (c : ascii) (n : N) : Prop :=
  digit_of c n \/ (10 <= n < 16 /\ (N_of_ascii c = 97 + (n - 10) \/ N_of_ascii c = 65 + (n - 10))).
Definition hex4 (s : string) (n : N) : Prop :=
  exists a b c d na nb nc nd, s = String a (String b (String c (lit d))) /\
    hex_of a na /\ hex_of b nb /\ hex_of c nc /\ hex_of d nd /\ n = na * 4096 + nb * 256 + nc * 16 + nd.
(** The bytes of a code point. *)
Inductive utf8_bytes : N -> list N -> Prop :=
| utf8_1 n : n < 128 -> utf8_bytes n [n]
| utf8_2 a b : a < 32 -> b < 64 -> 128 <= a * 64 + b -> utf8_bytes (a * 64 + b) [192 + a; 128 + b]
| utf8_3 a b c : a < 16 -> b < 64 -> c < 64 -> 2048 <= a * 4096 + b * 64 + c ->
    utf8_bytes (a * 4096 + b * 64 + c) [224 + a; 128 + b; 128 + c]
| utf8_4 a b c d : a < 8 -> b < 64 -> c < 64 -> d < 64 -> 65536 <= a * 262144 + b * 4096 + c * 64 + d ->
    utf8_bytes (a * 262144 + b * 4096 + c * 64 + d) [240 + a; 128 + b; 128 + c; 128 + d].
Fixpoint of_bytes (l : list N) : string :=
  match l with [] => EmptyString | n :: r => String (ascii_of_N n) (of_bytes r) end.
Definition high (n : N) : Prop := 55296 <= n <= 56319.
Definition low (n : N) : Prop := 56320 <= n <= 57343.

(** One character of a string literal and the bytes it stands for. *)
Inductive char_text : string -> string -> Prop :=
| char_plain c : 32 <= N_of_ascii c -> c <> quote -> c <> backslash -> char_text (lit c) (lit c)
| char_short e c :
    In (e, c) [(quote, quote); (backslash, backslash); ("/", "/"); ("b", "008"); ("f", "012"); ("n", "010");
               ("r", "013"); ("t", "009")]%char ->
    char_text (String backslash (lit e)) (lit c)
| char_hex h n b : hex4 h n -> ~ high n -> ~ low n -> utf8_bytes n b ->
    char_text (String backslash "u" +:+ h) (of_bytes b)
| char_pair h1 h2 n1 n2 b : hex4 h1 n1 -> hex4 h2 n2 -> high n1 -> low n2 ->
    utf8_bytes (65536 + (n1 - 55296) * 1024 + (n2 - 56320)) b ->
    char_text (String backslash "u" +:+ h1 +:+ String backslash "u" +:+ h2) (of_bytes b).
Inductive chars_text : string -> string -> Prop :=
| chars_none : chars_text "" ""
| chars_more a b t s : char_text a b -> chars_text t s -> chars_text (a +:+ t) (b +:+ s).
Definition string_text (s t : string) : Prop :=
  exists body, chars_text body s /\ t = (lit quote +:+ body +:+ lit quote).

(** A string literal by the grammar alone, whose escapes may be halves of
    surrogate pairs; [string_odd]: one that stands for no string. *)
Inductive char_form : string -> Prop :=
| form_plain c : 32 <= N_of_ascii c -> c <> quote -> c <> backslash -> char_form (lit c)
| form_short e : In e [quote; backslash; "/"; "b"; "f"; "n"; "r"; "t"]%char -> char_form (String backslash (lit e))
| form_hex h n : hex4 h n -> char_form (String backslash "u" +:+ h).
Inductive chars_form : string -> Prop :=
| forms_none : chars_form ""
| forms_more a t : char_form a -> chars_form t -> chars_form (a +:+ t).
Definition string_odd (t : string) : Prop :=
  (exists body, chars_form body /\ t = (lit quote +:+ body +:+ lit quote)) /\ forall s, ~ string_text s t.
Definition key_text (k : option string) (t : string) : Prop :=
  match k with Some s => string_text s t | None => string_odd t end.

(** [value_text v t]: the text [t], without white space around it, stands for
    the value [v]; an odd string, and an object with one for a key, for the one
    value [JOdd]. *)
Inductive value_text : json -> string -> Prop :=
| vt_null : value_text JNull "null"
| vt_true : value_text (JBool true) "true"
| vt_false : value_text (JBool false) "false"
| vt_num t : integer t -> value_text (JNum (decimal 0 t)) t
| vt_other m i f e :
    In m [""; "-"]%string -> integer i -> f = ""%string \/ fraction f -> e = ""%string \/ exponent e ->
    (m +:+ f +:+ e) <> ""%string -> value_text JOther (m +:+ i +:+ f +:+ e)
| vt_str s t : string_text s t -> value_text (JStr s) t
| vt_odd t : string_odd t -> value_text JOdd t
| vt_arr0 w : white w -> value_text (JArr []) ("[" +:+ w +:+ "]")
| vt_arr l t : elems_text l t -> value_text (JArr l) ("[" +:+ t +:+ "]")
| vt_obj0 w : white w -> value_text (JObj []) ("{" +:+ w +:+ "}")
| vt_obj ms l t : members_text ms t -> ms = map (fun x => (Some x.1, x.2)) l -> value_text (JObj l) ("{" +:+ t +:+ "}")
| vt_obj_odd ms v t : members_text ms t -> In (None, v) ms -> value_text JOdd ("{" +:+ t +:+ "}")
with elems_text : list json -> string -> Prop :=
| et_last w1 v t w2 : white w1 -> value_text v t -> white w2 -> elems_text [v] (w1 +:+ t +:+ w2)
| et_more w1 v t w2 l r : white w1 -> value_text v t -> white w2 -> elems_text l r ->
    elems_text (v :: l) (w1 +:+ t +:+ w2 +:+ "," +:+ r)
with members_text : list (option string * json) -> string -> Prop :=
| mt_last w1 k kt w2 w3 v t w4 :
    white w1 -> key_text k kt -> white w2 -> white w3 -> value_text v t -> white w4 ->
    members_text [(k, v)] (w1 +:+ kt +:+ w2 +:+ ":" +:+ w3 +:+ t +:+ w4)
| mt_more w1 k kt w2 w3 v t w4 l r :
    white w1 -> key_text k kt -> white w2 -> white w3 -> value_text v t -> white w4 -> members_text l r ->
    members_text ((k, v) :: l) (w1 +:+ kt +:+ w2 +:+ ":" +:+ w3 +:+ t +:+ w4 +:+ "," +:+ r).
(** [json_text v t]: the text [t] is JSON for the value [v]. *)
Definition json_text (v : json) (t : string) : Prop :=
  exists w1 u w2, white w1 /\ value_text v u /\ white w2 /\ t = (w1 +:+ u +:+ w2).

(** ** Messages *)
(** The object has exactly one member named [k], with value [v]. *)
Definition only (l : list (string * json)) (k : string) (v : json) : Prop :=
  exists l1 l2, l = l1 ++ (k, v) :: l2 /\ forall x, In x (l1 ++ l2) -> x.1 <> k.
(** A struct with the fields [ks] of the values [vs]: an object with these
    members, possibly among others and in any order, or an array of the values. *)
Definition struct (ks : list string) (vs : list json) (v : json) : Prop :=
  (exists l, v = JObj l /\ Forall2 (only l) ks vs) \/ (v = JArr vs /\ length vs = length ks).
Definition is_u32 (n : N) (v : json) : Prop := n <= 4294967295 /\ v = JNum n.
Definition is_u64 (n : N) (v : json) : Prop := n <= 18446744073709551615 /\ v = JNum n.
Definition is_string (s : string) (v : json) : Prop := v = JStr s.
Definition is_list {A} (is : A -> json -> Prop) (l : list A) (v : json) : Prop := exists vs, v = JArr vs /\ Forall2 is l vs.
(** A struct given by the names of its fields and what their values must be. *)
Definition has (fs : list (string * (json -> Prop))) (v : json) : Prop :=
  exists vs, struct (fs.*1) vs v /\ Forall2 (fun f x => f.2 x) fs vs.

Definition is_level (x : level) : json -> Prop :=
  has [("visitor_threshold", is_u32 (visitor_threshold x)); ("difficulty_factor", is_u32 (difficulty_factor x))]%string.
Definition is_defense (x : defense) : json -> Prop :=
  has [("levels", is_list is_level (d_levels x)); ("current_visitor_threshold", is_u64 (d_current x))]%string.
Definition is_mcaptcha (x : mcaptcha) : json -> Prop :=
  has [("visitor_threshold", is_u32 (m_visitors x)); ("defense", is_defense (m_defense x));
       ("duration", is_u64 (m_duration x))]%string.
Definition is_create (x : create_mcaptcha) : json -> Prop :=
  has [("levels", is_list is_level (cm_levels x)); ("duration", is_u64 (cm_duration x))]%string.
Definition is_visit (x : add_visitor_result) : json -> Prop :=
  has [("duration", is_u64 (avr_duration x)); ("difficulty_factor", is_u32 (avr_difficulty_factor x))]%string.
Definition is_challenge (x : add_challenge) : json -> Prop :=
  has [("difficulty", is_u32 (ac_difficulty x)); ("duration", is_u64 (ac_duration x));
       ("challenge", is_string (ac_challenge x))]%string.
Definition is_cache_pow (x : cache_pow) : json -> Prop :=
  has [("string", is_string (cp_string x)); ("difficulty_factor", is_u32 (cp_difficulty_factor x));
       ("duration", is_u64 (cp_duration x)); ("key", is_string (cp_key x))]%string.
Definition is_cached (x : cached_pow) : json -> Prop :=
  has [("key", is_string (cc_key x)); ("difficulty_factor", is_u32 (cc_difficulty_factor x));
       ("duration", is_u64 (cc_duration x))]%string.
Definition is_result (x : cache_result) : json -> Prop :=
  has [("token", is_string (cr_token x)); ("key", is_string (cr_key x)); ("duration", is_u64 (cr_duration x))]%string.
Definition is_verify (x : verify_captcha_result) : json -> Prop :=
  has [("token", is_string (vr_token x)); ("key", is_string (vr_key x))]%string.
Definition is_pow_config (x : pow_config) : json -> Prop :=
  has [("string", is_string (pc_string x)); ("difficulty_factor", is_u32 (pc_difficulty_factor x));
       ("salt", is_string (pc_salt x))]%string.
Definition is_work (x : work) : json -> Prop :=
  has [("string", is_string (w_string x)); ("result", is_string (w_result x)); ("nonce", is_u64 (w_nonce x));
       ("key", is_string (w_key x))]%string.
Definition is_site (f : string) (x : string * mcaptcha) : json -> Prop :=
  has [(f, is_string x.1); ("mcaptcha", is_mcaptcha x.2)]%string.
Definition is_rename (x : string * string) : json -> Prop :=
  has [("name", is_string x.1); ("rename_to", is_string x.2)]%string.
(** The dump of all sites: an object of sites, of which the last of each name counts. *)
Definition is_dump (m : gmap string mcaptcha) (v : json) : Prop :=
  exists l ms, v = JObj l /\ Forall2 (fun (y : string * mcaptcha) x => y.1 = x.1 /\ is_mcaptcha y.2 x.2) ms l /\
    forall k x, m !! k = Some x <-> exists ms1 ms2, ms = ms1 ++ (k, x) :: ms2 /\ forall y, In y ms2 -> y.1 <> k.

(** A reader of messages of type [A] takes exactly the texts that are JSON for
    what [is] says, for that message. *)
Definition reads_exactly {A} (dec : json -> option A) (is : A -> json -> Prop) : Prop :=
  forall t x, from_str dec t = Some x <-> exists v, json_text v t /\ is x v.
