(** Model of the builders [derive_builder] generates for the messages in
    /repo/src/cache/mod.rs:57-69, 93-100 and /repo/src/master/mod.rs:88-102
    (default settings: every field an [Option], setters overwrite, [build]
    borrows the builder and reports the first unset field in declaration order
    as [UninitializedField]). *)
From Verif Require Import Model.Base Model.Defense Model.MCaptcha Model.HashCache.
Local Open Scope string_scope.

(** [Result<T, TBuilderError>]. As derived for cache/mod.rs:57, 93 and master/mod.rs:89, 97 (derive_builder,
    library). *)
Inductive built (A : Type) := Built (a : A) | Uninitialized (field : string).
Arguments Built {A} a. Arguments Uninitialized {A} field.
(** [self.field.clone().ok_or(UninitializedField(name))?]. As derived for cache/mod.rs:57, 93 and
    master/mod.rs:89, 97 (derive_builder, library). *)
Definition field {A B} (x : option A) (name : string) (k : A -> built B) : built B :=
  match x with Some a => k a | None => Uninitialized name end.
(** [Result::unwrap]. E.g. system.rs:118-119. *)
Definition bunwrap {A} (b : built A) : outcome A :=
  match b with Built a => Val a | Uninitialized _ => Panic end.

(** cache/mod.rs:58-69 [CachePoWBuilder]. *)
Record cache_pow_builder := CachePoWBuilder {
  pb_string : option string; pb_difficulty_factor : option N; pb_duration : option N; pb_key : option string }.
Inductive pb_call := PbString (s : string) | PbDifficulty (n : N) | PbDuration (n : N) | PbKey (s : string).
Definition pb_set (b : cache_pow_builder) (c : pb_call) : cache_pow_builder :=
  match c with
  | PbString s => CachePoWBuilder (Some s) (pb_difficulty_factor b) (pb_duration b) (pb_key b)
  | PbDifficulty n => CachePoWBuilder (pb_string b) (Some n) (pb_duration b) (pb_key b)
  | PbDuration n => CachePoWBuilder (pb_string b) (pb_difficulty_factor b) (Some n) (pb_key b)
  | PbKey s => CachePoWBuilder (pb_string b) (pb_difficulty_factor b) (pb_duration b) (Some s)
  end.
Definition pb_run (cs : list pb_call) : cache_pow_builder := fold_left pb_set cs (CachePoWBuilder None None None None).
Definition pb_build (b : cache_pow_builder) : built cache_pow :=
  field (pb_string b) "string" (fun s => field (pb_difficulty_factor b) "difficulty_factor" (fun f =>
  field (pb_duration b) "duration" (fun d => field (pb_key b) "key" (fun k => Built (CachePoW s f d k))))).

(** cache/mod.rs:93-100 [CacheResultBuilder]. *)
Record cache_result_builder := CacheResultBuilder {
  rb_token : option string; rb_key : option string; rb_duration : option N }.
Inductive rb_call := RbToken (s : string) | RbKey (s : string) | RbDuration (n : N).
Definition rb_set (b : cache_result_builder) (c : rb_call) : cache_result_builder :=
  match c with
  | RbToken s => CacheResultBuilder (Some s) (rb_key b) (rb_duration b)
  | RbKey s => CacheResultBuilder (rb_token b) (Some s) (rb_duration b)
  | RbDuration n => CacheResultBuilder (rb_token b) (rb_key b) (Some n)
  end.
Definition rb_run (cs : list rb_call) : cache_result_builder := fold_left rb_set cs (CacheResultBuilder None None None).
Definition rb_build (b : cache_result_builder) : built cache_result :=
  field (rb_token b) "token" (fun t => field (rb_key b) "key" (fun k =>
  field (rb_duration b) "duration" (fun d => Built (CacheResult t k d)))).
(** cache/mod.rs:102-114 [From<CachedPoWConfig> for CacheResult], with its
    builder and its [unwrap]; [token] is [get_random(32)]. *)
Definition cached_into_result_built (c : cached_pow) (token : string) : outcome cache_result :=
  bunwrap (rb_build (rb_run [RbKey (cc_key c); RbDuration (cc_duration c); RbToken token])).

(** master/mod.rs:89-94 [AddSiteBuilder]; an [AddSite] is its two fields. *)
Record add_site_builder := AddSiteBuilder { ab_id : option string; ab_mcaptcha : option mcaptcha }.
Inductive ab_call := AbId (s : string) | AbMcaptcha (m : mcaptcha).
Definition ab_set (b : add_site_builder) (c : ab_call) : add_site_builder :=
  match c with
  | AbId s => AddSiteBuilder (Some s) (ab_mcaptcha b)
  | AbMcaptcha m => AddSiteBuilder (ab_id b) (Some m)
  end.
Definition ab_run (cs : list ab_call) : add_site_builder := fold_left ab_set cs (AddSiteBuilder None None).
Definition ab_build (b : add_site_builder) : built (string * mcaptcha) :=
  field (ab_id b) "id" (fun i => field (ab_mcaptcha b) "mcaptcha" (fun m => Built (i, m))).

(** master/mod.rs:97-102 [RenameBuilder]; a [Rename] is (name, rename_to). *)
Record rename_builder := RenameBuilder { nb_name : option string; nb_rename_to : option string }.
Inductive nb_call := NbName (s : string) | NbRenameTo (s : string).
Definition nb_set (b : rename_builder) (c : nb_call) : rename_builder :=
  match c with
  | NbName s => RenameBuilder (Some s) (nb_rename_to b)
  | NbRenameTo s => RenameBuilder (nb_name b) (Some s)
  end.
Definition nb_run (cs : list nb_call) : rename_builder := fold_left nb_set cs (RenameBuilder None None).
Definition nb_build (b : rename_builder) : built (string * string) :=
  field (nb_name b) "name" (fun n => field (nb_rename_to b) "rename_to" (fun t => Built (n, t))).
