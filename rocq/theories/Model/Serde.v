(** The Serialize/Deserialize derives of /repo's data types, over JSON.
    [encode_*] gives the value serde_json writes (struct fields in declaration
    order), [decode_*] what the derived Deserialize accepts: an object with every
    field exactly once (others are ignored), or an array with the fields in
    order; unsigned integers within range. *)
From Verif Require Import Model.Base Model.Defense Model.MCaptcha Model.HashCache Model.Pow Model.Json.

(** serde (library), as derived at defense.rs:49, mcaptcha.rs:27 and so on: see below. *)
Definition values_of (k : string) (l : list (string * json)) : list json :=
  omap (fun x => if String.eqb x.1 k then Some x.2 else None) l.
Definition fields (ks : list string) (v : json) : option (list json) :=
  match v with
  | JObj l => mapM (fun k => match values_of k l with [x] => Some x | _ => None end) ks
  | JArr l => if (length l =? length ks)%nat then Some l else None
  | _ => None
  end.
(** serde (library): numbers, strings and sequences, for the fields of these types (e.g. defense.rs:49-53). *)
Definition uint_le (max : N) (v : json) : option N :=
  match v with JNum n => if n <=? max then Some n else None | _ => None end.
Definition de_u32 : json -> option N := uint_le u32_max.
Definition de_u64 : json -> option N := uint_le u64_max.
Definition de_string (v : json) : option string := match v with JStr s => Some s | _ => None end.
Definition de_vec {A} (f : json -> option A) (v : json) : option (list A) :=
  match v with JArr l => mapM f l | _ => None end.

(** defense.rs:49-53 [Level]. *)
Definition encode_level (x : level) : json :=
  JObj [("visitor_threshold", JNum (visitor_threshold x)); ("difficulty_factor", JNum (difficulty_factor x))]%string.
Definition decode_level (v : json) : option level :=
  match fields ["visitor_threshold"; "difficulty_factor"]%string v with
  | Some [a; b] => t ← de_u32 a; d ← de_u32 b; Some (Level t d)
  | _ => None
  end.
(** defense.rs:164-169 [Defense]. *)
Definition encode_defense (x : defense) : json :=
  JObj [("levels", JArr (encode_level <$> d_levels x)); ("current_visitor_threshold", JNum (d_current x))]%string.
Definition decode_defense (v : json) : option defense :=
  match fields ["levels"; "current_visitor_threshold"]%string v with
  | Some [a; b] => l ← de_vec decode_level a; c ← de_u64 b; Some (Defense l c)
  | _ => None
  end.
(** mcaptcha.rs:73-79 [MCaptcha]. *)
Definition encode_mcaptcha (x : mcaptcha) : json :=
  JObj [("visitor_threshold", JNum (m_visitors x)); ("defense", encode_defense (m_defense x));
        ("duration", JNum (m_duration x))]%string.
Definition decode_mcaptcha (v : json) : option mcaptcha :=
  match fields ["visitor_threshold"; "defense"; "duration"]%string v with
  | Some [a; b; c] => t ← de_u32 a; d ← decode_defense b; u ← de_u64 c; Some (MCaptcha t d u)
  | _ => None
  end.
(** master/mod.rs:42-48 [CreateMCaptcha]. *)
Definition encode_create (x : create_mcaptcha) : json :=
  JObj [("levels", JArr (encode_level <$> cm_levels x)); ("duration", JNum (cm_duration x))]%string.
Definition decode_create (v : json) : option create_mcaptcha :=
  match fields ["levels"; "duration"]%string v with
  | Some [a; b] => l ← de_vec decode_level a; u ← de_u64 b; Some (CreateMCaptcha l u)
  | _ => None
  end.
(** master/mod.rs:53-57 [AddVisitorResult]. *)
Definition encode_visit (x : add_visitor_result) : json :=
  JObj [("duration", JNum (avr_duration x)); ("difficulty_factor", JNum (avr_difficulty_factor x))]%string.
Definition decode_visit (v : json) : option add_visitor_result :=
  match fields ["duration"; "difficulty_factor"]%string v with
  | Some [a; b] => u ← de_u64 a; d ← de_u32 b; Some (AddVisitorResult u d)
  | _ => None
  end.
(** cache/mod.rs:27-32 [AddChallenge]. *)
Record add_challenge := AddChallenge { ac_difficulty : N; ac_duration : N; ac_challenge : string }.
Global Instance add_challenge_eq_dec : EqDecision add_challenge.
Proof. solve_decision. Defined.
Definition encode_challenge (x : add_challenge) : json :=
  JObj [("difficulty", JNum (ac_difficulty x)); ("duration", JNum (ac_duration x));
        ("challenge", JStr (ac_challenge x))]%string.
Definition decode_challenge (v : json) : option add_challenge :=
  match fields ["difficulty"; "duration"; "challenge"]%string v with
  | Some [a; b; c] => d ← de_u32 a; u ← de_u64 b; s ← de_string c; Some (AddChallenge d u s)
  | _ => None
  end.
(** cache/mod.rs:58-69 [CachePoW]. *)
Definition encode_cache_pow (x : cache_pow) : json :=
  JObj [("string", JStr (cp_string x)); ("difficulty_factor", JNum (cp_difficulty_factor x));
        ("duration", JNum (cp_duration x)); ("key", JStr (cp_key x))]%string.
Definition decode_cache_pow (v : json) : option cache_pow :=
  match fields ["string"; "difficulty_factor"; "duration"; "key"]%string v with
  | Some [a; b; c; e] => s ← de_string a; d ← de_u32 b; u ← de_u64 c; k ← de_string e; Some (CachePoW s d u k)
  | _ => None
  end.
(** cache/mod.rs:77-83 [CachedPoWConfig]. *)
Definition encode_cached (x : cached_pow) : json :=
  JObj [("key", JStr (cc_key x)); ("difficulty_factor", JNum (cc_difficulty_factor x));
        ("duration", JNum (cc_duration x))]%string.
Definition decode_cached (v : json) : option cached_pow :=
  match fields ["key"; "difficulty_factor"; "duration"]%string v with
  | Some [a; b; c] => k ← de_string a; d ← de_u32 b; u ← de_u64 c; Some (CachedPoWConfig k d u)
  | _ => None
  end.
(** cache/mod.rs:92-100 [CacheResult]. *)
Definition encode_result (x : cache_result) : json :=
  JObj [("token", JStr (cr_token x)); ("key", JStr (cr_key x)); ("duration", JNum (cr_duration x))]%string.
Definition decode_result (v : json) : option cache_result :=
  match fields ["token"; "key"; "duration"]%string v with
  | Some [a; b; c] => t ← de_string a; k ← de_string b; u ← de_u64 c; Some (CacheResult t k u)
  | _ => None
  end.
(** cache/mod.rs:117-122 [VerifyCaptchaResult]. *)
Definition encode_verify (x : verify_captcha_result) : json :=
  JObj [("token", JStr (vr_token x)); ("key", JStr (vr_key x))]%string.
Definition decode_verify (v : json) : option verify_captcha_result :=
  match fields ["token"; "key"]%string v with
  | Some [a; b] => t ← de_string a; k ← de_string b; Some (VerifyCaptchaResult t k)
  | _ => None
  end.
(** pow.rs:30-36 [PoWConfig]. *)
Definition encode_pow_config (x : pow_config) : json :=
  JObj [("string", JStr (pc_string x)); ("difficulty_factor", JNum (pc_difficulty_factor x));
        ("salt", JStr (pc_salt x))]%string.
Definition decode_pow_config (v : json) : option pow_config :=
  match fields ["string"; "difficulty_factor"; "salt"]%string v with
  | Some [a; b; c] => s ← de_string a; d ← de_u32 b; t ← de_string c; Some (PoWConfig s d t)
  | _ => None
  end.
(** pow.rs:51-57 [Work]. *)
Definition encode_work (x : work) : json :=
  JObj [("string", JStr (w_string x)); ("result", JStr (w_result x)); ("nonce", JNum (w_nonce x));
        ("key", JStr (w_key x))]%string.
Definition decode_work (v : json) : option work :=
  match fields ["string"; "result"; "nonce"; "key"]%string v with
  | Some [a; b; c; e] => s ← de_string a; r ← de_string b; n ← de_u64 c; k ← de_string e; Some (Work s r n k)
  | _ => None
  end.

(** master/mod.rs:89-94 [AddSite], 109-113 [InternalData] (same shape, other field
    names), 97-102 [Rename]; the tuple structs AddVisitor, RemoveCaptcha
    (84-86, 105-107) and counter.rs:94-95 [Counter] are written as their only
    field. *)
Definition encode_site (f : string) (x : string * mcaptcha) : json :=
  JObj [(f, JStr x.1); ("mcaptcha", encode_mcaptcha x.2)]%string.
Definition decode_site (f : string) (v : json) : option (string * mcaptcha) :=
  match fields [f; "mcaptcha"]%string v with
  | Some [a; b] => s ← de_string a; m ← decode_mcaptcha b; Some (s, m)
  | _ => None
  end.
Definition encode_add_site := encode_site "id".
Definition decode_add_site := decode_site "id".
Definition encode_internal := encode_site "name".
Definition decode_internal := decode_site "name".
Definition encode_rename (x : string * string) : json :=
  JObj [("name", JStr x.1); ("rename_to", JStr x.2)]%string.
Definition decode_rename (v : json) : option (string * string) :=
  match fields ["name"; "rename_to"]%string v with
  | Some [a; b] => s ← de_string a; t ← de_string b; Some (s, t)
  | _ => None
  end.
(** master/mod.rs:116-125: the [HashMap<String, MCaptcha>] that GetInternalData
    hands out and SetInternalData takes. Written in the map's iteration order, of
    which nothing is known: the argument lists the entries. Reading inserts the
    entries one by one. *)
Definition encode_dump (l : list (string * mcaptcha)) : json :=
  JObj ((fun x => (x.1, encode_mcaptcha x.2)) <$> l).
Definition decode_dump (v : json) : option (gmap string mcaptcha) :=
  match v with
  | JObj l => ms ← mapM (fun x : string * json => m ← decode_mcaptcha x.2; Some (x.1, m)) l;
              Some (foldl (fun acc x => <[x.1 := x.2]> acc) ∅ ms)
  | _ => None
  end.

(** [serde_json::to_string] and [serde_json::from_str] at a type. mcaptcha_redis.rs:120, 128, 175, 191. *)
Definition to_string {A} (enc : A -> json) (x : A) : string := print (enc x).
Definition from_str {A} (dec : json -> option A) (s : string) : option A := v ← parse s; dec v.
