(** C112: however a JSON text is written, it is read as the message it stands for. *)
From Coq Require Import Ascii ZifyBool ZifyN ZifyNat Lia.
From Verif Require Import Model.Base Model.Defense Model.MCaptcha Model.HashCache Model.Pow Model.Json Model.Serde
  Spec.JsonSpec Proofs.JsonProofs Proofs.GrammarProofs Proofs.MessageProofs.
From Verif Require Export Proofs.JsonTheorems.

(** The texts read are exactly the JSON texts, each for the one value it stands
    for; and what is written is JSON for the value written. *)
Theorem C112_grammar :
  (forall v t, parse t = Some v <-> json_text v t) /\
  (forall v v' t, json_text v t -> json_text v' t -> v = v') /\
  (forall v, json_text v (print v)).
Proof. exact c112_grammar. Qed.
Print Assumptions C112_grammar.

(** A message is read from exactly the JSON texts that give each of its fields
    once, with a value of the field's type; order, other members, white space and
    escapes do not matter. *)
Theorem C112_messages :
  reads_exactly decode_level is_level /\ reads_exactly decode_defense is_defense /\
  reads_exactly decode_mcaptcha is_mcaptcha /\ reads_exactly decode_create is_create /\
  reads_exactly decode_visit is_visit /\ reads_exactly decode_challenge is_challenge /\
  reads_exactly decode_cache_pow is_cache_pow /\ reads_exactly decode_cached is_cached /\
  reads_exactly decode_result is_result /\ reads_exactly decode_verify is_verify /\
  reads_exactly decode_pow_config is_pow_config /\ reads_exactly decode_work is_work /\
  reads_exactly decode_add_site (is_site "id") /\ reads_exactly decode_internal (is_site "name") /\
  reads_exactly decode_rename is_rename /\ reads_exactly decode_dump is_dump.
Proof. exact c112_messages. Qed.
Print Assumptions C112_messages.

(** Text in which ' stands for a quotation mark and ^ for a backslash. *)
Fixpoint quoted (s : string) : string :=
  match s with
  | EmptyString => EmptyString
  | String c r => String (if Ascii.eqb c "'" then quote else if Ascii.eqb c "^" then backslash else c)%char (quoted r)
  end.

Definition read_work (s : string) : option work := from_str decode_work (quoted s).

Example C112_witness :
  let w := Work "a/b" (String quote "x") 10 (of_bytes [240; 159; 152; 128; 195; 169]) in
  read_work "{'string':'a/b','result':'^'x','nonce':10,'key':'^ud83d^ude00^u00e9'}" = Some w /\
  read_work " { 'nonce' : 10 , 'key':'^uD83D^uDE00^u00E9', 'unknown':[{'string':[]},-1.5E+3,null], 'resul^u0074':'^u0022x',
     'string' : 'a^/^u0062' } " = Some w /\
  read_work "['a/b','^'x',10,'^ud83d^ude00^u00e9']" = Some w /\
  (* half a surrogate pair in members that do not matter *)
  read_work "{'x':['^uDE00^ud83d'],'string':'a/b','result':'^'x','nonce':10,'y':{'^ud83d':1},'key':'^ud83d^ude00^u00e9'}" = Some w.
Proof. vm_compute. done. Qed.

Example C112_witness_rejected : Forall (fun s => read_work s = None) [
  (* twice; missing; negative, fractional, too large, no digits, leading zero *)
  "{'string':'a','result':'x','nonce':1,'key':'k','key':'k'}"; "{'string':'a','result':'x','nonce':1}";
  "{'string':'a','result':'x','nonce':-1,'key':'k'}"; "{'string':'a','result':'x','nonce':1.0,'key':'k'}";
  "{'string':'a','result':'x','nonce':18446744073709551616,'key':'k'}"; "{'string':'a','result':'x','nonce':,'key':'k'}";
  "{'string':'a','result':'x','nonce':01,'key':'k'}"; "{'string':'a','result':'x','nonce':'1','key':'k'}";
  (* half a surrogate pair, bad escape, comma before the end, more text, a different case *)
  "{'string':'^ud83d','result':'x','nonce':1,'key':'k'}"; "{'string':'^ude00^ud83d','result':'x','nonce':1,'key':'k'}";
  "{'string':'a','result':'x','nonce':1,'key':'k','^ud83d':1}"; "{'string':'a','result':'x','nonce':1,'key':'k','y':'^ud83'}";
  "{'string':'^x','result':'x','nonce':1,'key':'k'}"; "{'string':'a','result':'x','nonce':1,'key':'k',}";
  "{'string':'a','result':'x','nonce':1,'key':'k'}1"; "{'String':'a','result':'x','nonce':1,'key':'k'}";
  "['a','x',1,'k',0]"; "['a','x',1]"; ""]%string.
Proof. repeat constructor. Qed.

Example C112_witness_grammar : json_text (JArr [JNum 10; JStr "a"]) (" [10 ," +:+ quoted "'^u0061'" +:+ "]").
Proof.
  exists " "%string, ("[" +:+ ("" +:+ "10" +:+ " " +:+ "," +:+ ("" +:+ quoted "'^u0061'" +:+ "")) +:+ "]")%string, ""%string.
  split; [repeat (constructor; try (cbn; tauto))|]. split; [|split; [constructor|done]]. apply vt_arr, et_more; [constructor| | |].
  - apply (vt_num "10"). split; [|right; by eexists _, _]. apply (digits_more _ 1); [done|]. apply (digits_one _ 0). done.
  - repeat (constructor; try (cbn; tauto)).
  - apply et_last; [constructor| |constructor]. apply vt_str. exists (quoted "^u0061"). split; [|done].
    apply (chars_more (quoted "^u0061") (of_bytes [97]) "" ""); [|constructor].
    apply (char_hex "0061" 97 [97]); [|unfold high; lia|unfold low; lia|constructor; lia].
    exists "0"%char, "0"%char, "6"%char, "1"%char, 0, 0, 6, 1. split; [done|]. split_and!; [by left; split..|done].
Qed.

Example C112_witness_odd : json_text JOdd (quoted "{'^ud83d':1}") /\ forall s, ~ json_text (JStr s) (quoted "'^ud83d'").
Proof.
  split; [apply C112_grammar; reflexivity|]. intros s H. apply C112_grammar in H.
  change (Some JOdd = Some (JStr s)) in H. discriminate H.
Qed.
