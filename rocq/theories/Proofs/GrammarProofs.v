(** The reader of Model/Json.v takes exactly the JSON texts, for the value they
    stand for. *)
From Coq Require Import Ascii Decimal DecimalString DecimalN DecimalFacts ZifyBool ZifyN ZifyNat Lia.
From Verif Require Import Model.Base Model.Json Spec.JsonSpec Proofs.JsonProofs.

Lemma code_ascii n : n < 256 -> N_of_ascii (ascii_of_N n) = n.
Proof. exact (N_ascii_embedding n). Qed.
Lemma code_inj a b : code a = code b -> a = b.
Proof. intros H. rewrite <- (ascii_N_embedding a), <- (ascii_N_embedding b). unfold code in H. by rewrite H. Qed.
Lemma code_is c n : code c = n -> c = chr n.
Proof. intros <-. unfold chr, code. by rewrite ascii_N_embedding. Qed.
Lemma cons_app c (s : string) : String c s = lit c +:+ s.
Proof. done. Qed.
Lemma app_cons c (s t : string) : String c s +:+ t = String c (s +:+ t).
Proof. done. Qed.

(** ** White space *)
Lemma is_ws_In c : is_ws c = true <-> In c [" "; "009"; "010"; "013"]%char.
Proof.
  unfold is_ws. split.
  - intros H. assert (code c = 32 \/ code c = 9 \/ code c = 10 \/ code c = 13) as [E|[E|[E|E]]] by lia;
      apply code_is in E; subst c; cbn; tauto.
  - by intros [<-|[<-|[<-|[<-|[]]]]].
Qed.
Lemma skip_white w s : white w -> skip_ws (w +:+ s) = skip_ws s.
Proof.
  induction 1 as [|c w Hc Hw IH]; [done|]. rewrite app_cons. cbn [skip_ws]. apply is_ws_In in Hc. by rewrite Hc.
Qed.
Lemma skip_split s : exists w, white w /\ s = w +:+ skip_ws s.
Proof.
  induction s as [|c s (w & Hw & E)]; [exists ""%string; split; [constructor|done]|].
  cbn [skip_ws]. destruct (is_ws c) eqn:Ec.
  - exists (String c w). split; [constructor; [by apply is_ws_In|done]|]. by rewrite app_cons, <- E.
  - exists ""%string. split; [constructor|done].
Qed.
Lemma skip_none s : skip_ws s = EmptyString -> white s.
Proof. intros E. destruct (skip_split s) as (w & Hw & Es). rewrite E, app_nil_s in Es. by subst. Qed.

(** ** Strings *)
Lemma unhex_spec c n : unhex c = Some n <-> hex_of c n.
Proof.
  unfold unhex, hex_of, digit_of. change (N_of_ascii c) with (code c). split.
  - repeat case_match; intros [= <-]; lia.
  - intros [[H1 H2]|[H1 H2]]; repeat case_match; try (f_equal; lia); exfalso; lia.
Qed.
Lemma unhex4_spec a b c d n :
  unhex4 a b c d = Some n <-> hex4 (String a (String b (String c (lit d)))) n.
Proof.
  unfold unhex4, hex4. split.
  - destruct (unhex a) as [na|] eqn:Ea; [|done]. destruct (unhex b) as [nb|] eqn:Eb; [|done].
    destruct (unhex c) as [nc|] eqn:Ec; [|done]. destruct (unhex d) as [nd|] eqn:Ed; [|done]. intros [= <-].
    exists a, b, c, d, na, nb, nc, nd. split; [done|]. rewrite <- !unhex_spec. do 4 (split; [done|]). lia.
  - intros (a' & b' & c' & d' & na & nb & nc & nd & [= <- <- <- <-] & Ha & Hb & Hc & Hd & ->).
    rewrite <- unhex_spec in Ha, Hb, Hc, Hd. rewrite Ha, Hb, Hc, Hd. f_equal. lia.
Qed.
Lemma hex4_bound s n : hex4 s n -> n < 65536.
Proof.
  intros (a & b & c & d & na & nb & nc & nd & _ & Ha & Hb & Hc & Hd & ->). unfold hex_of, digit_of in *. lia.
Qed.
Lemma hex4_shape s n : hex4 s n ->
  exists a b c d, s = String a (String b (String c (lit d))) /\ unhex4 a b c d = Some n.
Proof.
  intros H. pose proof H as (a & b & c & d & na & nb & nc & nd & -> & _). exists a, b, c, d. split; [done|].
  by apply unhex4_spec.
Qed.
Lemma utf8_spec n u : n < 1114112 ->
  utf8 n = Some u <-> ~ (55296 <= n <= 57343) /\ exists b, utf8_bytes n b /\ u = of_bytes b.
Proof.
  intros Hn. pose proof (N.div_mod n 64 ltac:(lia)) as D1. pose proof (N.mod_lt n 64 ltac:(lia)) as M1.
  pose proof (N.div_mod (n / 64) 64 ltac:(lia)) as D2. pose proof (N.mod_lt (n / 64) 64 ltac:(lia)) as M2.
  assert (n / 4096 = n / 64 / 64) as E4 by (rewrite N.div_div by lia; done).
  pose proof (N.div_mod (n / 4096) 64 ltac:(lia)) as D3. pose proof (N.mod_lt (n / 4096) 64 ltac:(lia)) as M3.
  assert (n / 262144 = n / 4096 / 64) as E5 by (rewrite N.div_div by lia; done).
  unfold utf8. split.
  - destruct (N.ltb_spec n 128); [intros [= <-]; split; [lia|]; exists [n]; by split; [constructor|]|].
    destruct (N.ltb_spec n 2048).
    { intros [= <-]. split; [lia|]. exists [192 + n / 64; 128 + n mod 64]. split; [|done].
      rewrite D1 at 1. rewrite (N.mul_comm 64). constructor; lia. }
    destruct ((55296 <=? n) && (n <=? 57343)) eqn:Es; [done|].
    destruct (N.ltb_spec n 65536).
    { intros [= <-]. split; [lia|]. exists [224 + n / 4096; 128 + (n / 64) mod 64; 128 + n mod 64]. split; [|done].
      replace n with (n / 4096 * 4096 + (n / 64) mod 64 * 64 + n mod 64) at 1 by lia. constructor; lia. }
    intros [= <-]. split; [lia|].
    exists [240 + n / 262144; 128 + (n / 4096) mod 64; 128 + (n / 64) mod 64; 128 + n mod 64]. split; [|done].
    replace n with (n / 262144 * 262144 + (n / 4096) mod 64 * 4096 + (n / 64) mod 64 * 64 + n mod 64) at 1 by lia.
    constructor; lia.
  - intros (Hs & b & Hb & ->). destruct Hb as [n Hb|x y|x y z|x y z t].
    + destruct (N.ltb_spec n 128); [done|lia].
    + destruct (N.ltb_spec (x * 64 + y) 128); [lia|]. destruct (N.ltb_spec (x * 64 + y) 2048); [|lia].
      assert ((x * 64 + y) / 64 = x) as Hx by lia. assert ((x * 64 + y) mod 64 = y) as Hy by lia. by rewrite Hx, Hy.
    + set (n := x * 4096 + y * 64 + z) in *. destruct (N.ltb_spec n 128); [lia|]. destruct (N.ltb_spec n 2048); [lia|].
      destruct ((55296 <=? n) && (n <=? 57343)) eqn:Es; [lia|]. destruct (N.ltb_spec n 65536); [|lia].
      assert (n / 4096 = x) as Hx by lia. assert ((n / 64) mod 64 = y) as Hy by lia. assert (n mod 64 = z) as Hz by lia.
      by rewrite Hx, Hy, Hz.
    + set (n := x * 262144 + y * 4096 + z * 64 + t) in *. destruct (N.ltb_spec n 128); [lia|].
      destruct (N.ltb_spec n 2048); [lia|].
      destruct ((55296 <=? n) && (n <=? 57343)) eqn:Es; [lia|]. destruct (N.ltb_spec n 65536); [lia|].
      assert (n / 262144 = x) as Hx by lia. assert ((n / 4096) mod 64 = y) as Hy by lia.
      assert ((n / 64) mod 64 = z) as Hz by lia. assert (n mod 64 = t) as Ht by lia. by rewrite Hx, Hy, Hz, Ht.
Qed.

Definition prepend (b : string) (x : option (string * string)) : option (string * string) :=
  match x with Some (t, rest) => Some (b +:+ t, rest) | None => None end.
(** What the reader does with a [\u] escape. *)
Definition after_u (hi : N) (s : string) : option (string * string) :=
  if (55296 <=? hi) && (hi <=? 56319) then
    match s with
    | String k (String v (String a' (String b' (String c'' (String d' r3))))) =>
        if (code k =? 92) && (code v =? 117) then
          match unhex4 a' b' c'' d' with
          | Some lo =>
              if (56320 <=? lo) && (lo <=? 57343) then
                match utf8 (65536 + (hi - 55296) * 1024 + (lo - 56320)), parse_str r3 with
                | Some u, Some (t, rest) => Some (u +:+ t, rest)
                | _, _ => None
                end
              else None
          | None => None
          end
        else None
    | _ => None
    end
  else
    match utf8 hi, parse_str s with
    | Some u, Some (t, rest) => Some (u +:+ t, rest)
    | _, _ => None
    end.
Lemma parse_u x y z t s :
  parse_str (String backslash (String "u"%char (String x (String y (String z (String t s)))))) =
  match unhex4 x y z t with Some hi => after_u hi s | None => None end.
Proof. reflexivity. Qed.
Lemma parse_short e s :
  parse_str (String backslash (String e s)) =
  (if code e =? 34 then prepend (one 34) (parse_str s)
   else if code e =? 92 then prepend (one 92) (parse_str s)
   else if code e =? 47 then prepend (one 47) (parse_str s)
   else if code e =? 98 then prepend (one 8) (parse_str s)
   else if code e =? 116 then prepend (one 9) (parse_str s)
   else if code e =? 110 then prepend (one 10) (parse_str s)
   else if code e =? 102 then prepend (one 12) (parse_str s)
   else if code e =? 114 then prepend (one 13) (parse_str s)
   else if code e =? 117 then
     match s with
     | String x (String y (String z (String t r))) =>
         match unhex4 x y z t with Some hi => after_u hi r | None => None end
     | _ => None
     end
   else None).
Proof. reflexivity. Qed.
Lemma parse_char a b s : char_text a b -> parse_str (a +:+ s) = prepend b (parse_str s).
Proof.
  intros H. destruct H as [c H1 H2 H3|e c H|h n b Hh Hhi Hlo Hb|h1 h2 n1 n2 b H1 H2 Hhi Hlo Hb].
  - change (lit c +:+ s) with (String c s). cbn [parse_str].
    destruct (N.eqb_spec (code c) 34) as [E|_]; [by apply code_is in E|].
    destruct (N.eqb_spec (code c) 92) as [E|_]; [by apply code_is in E|].
    destruct (N.ltb_spec (code c) 32) as [E|_]; [unfold code in E; lia|]. done.
  - cbn in H. repeat (destruct H as [[= <- <-]|H]; [done|]). done.
  - destruct (hex4_shape _ _ Hh) as (x & y & z & t & -> & E). pose proof (hex4_bound _ _ Hh) as Hn.
    etransitivity; [exact (parse_u x y z t s)|]. rewrite E. unfold after_u.
    destruct ((55296 <=? n) && (n <=? 56319)) eqn:Es; [unfold high in Hhi; lia|].
    assert (utf8 n = Some (of_bytes b)) as ->; [|by destruct (parse_str s) as [[]|]].
    apply utf8_spec; [lia|]. split; [unfold high, low in *; lia|]. by exists b.
  - destruct (hex4_shape _ _ H1) as (x & y & z & t & -> & E1). destruct (hex4_shape _ _ H2) as (x' & y' & z' & t' & -> & E2).
    etransitivity; [exact (parse_u x y z t (String backslash (String "u"%char
      (String x' (String y' (String z' (String t' s)))))))|].
    rewrite E1. unfold after_u. destruct ((55296 <=? n1) && (n1 <=? 56319)) eqn:Es1; [|unfold high in Hhi; lia].
    change ((code backslash =? 92) && (code "u"%char =? 117)) with true. cbn beta iota. rewrite E2.
    destruct ((56320 <=? n2) && (n2 <=? 57343)) eqn:Es2; [|unfold low in Hlo; lia].
    match goal with |- context [utf8 ?m] => assert (utf8 m = Some (of_bytes b)) as ->; [|by destruct (parse_str s) as [[]|]] end.
    unfold high, low in *. apply utf8_spec; [lia|]. split; [lia|]. by exists b.
Qed.
Lemma parse_chars body s rest : chars_text body s -> parse_str (body +:+ lit quote +:+ rest) = Some (s, rest).
Proof.
  induction 1 as [|a b t s Ha Ht IH]; [done|]. rewrite app_assoc_s, (parse_char a b _ Ha), IH. done.
Qed.
Lemma chars_sound n : forall s t rest, (String.length s <= n)%nat -> parse_str s = Some (t, rest) ->
  exists body, chars_text body t /\ s = body +:+ lit quote +:+ rest.
Proof.
  induction n as [|n IH]; intros s t rest Hn Hp; (destruct s as [|c s]; [done|]); cbn [String.length] in Hn; [lia|].
  assert (forall a b r t', String c s = a +:+ r -> (String.length r <= n)%nat -> char_text a b ->
    parse_str r = Some (t', rest) -> t = b +:+ t' ->
    exists body, chars_text body t /\ String c s = body +:+ lit quote +:+ rest) as Hstep.
  { intros a b r t' E Hr Ha Hr' ->. destruct (IH r t' rest Hr Hr') as (body & Hb & ->).
    exists (a +:+ body). split; [by constructor|]. rewrite E. by rewrite app_assoc_s. }
  destruct (N.eqb_spec (code c) 34) as [E|N34].
  { apply code_is in E. subst c. injection Hp as <- <-. exists ""%string. split; [constructor|done]. }
  destruct (N.eqb_spec (code c) 92) as [E|N92].
  - apply code_is in E. subst c. change (chr 92) with backslash in *.
    destruct s as [|e s]; [done|]. rewrite parse_short in Hp. cbn [String.length] in Hn.
    assert (forall m c', code e = m -> In (e, c') [(quote, quote); (backslash, backslash); ("/", "/"); ("b", "008"); ("f", "012"); ("n", "010");
               ("r", "013"); ("t", "009")]%char -> prepend (lit c') (parse_str s) = Some (t, rest) ->
      exists body, chars_text body t /\ String backslash (String e s) = body +:+ lit quote +:+ rest) as Hshort.
    { intros m c' _ Hin Hpr. destruct (parse_str s) as [[t' rest']|] eqn:Es; [|done].
      injection Hpr as <- <-.
      apply (Hstep (String backslash (lit e)) (lit c') s t'); [done|lia|by constructor|done|done]. }
    destruct (N.eqb_spec (code e) 34) as [E|_];
      [apply (Hshort 34 (chr 34)); [done|apply code_is in E; subst e; cbn; tauto|done]|].
    destruct (N.eqb_spec (code e) 92) as [E|_];
      [apply (Hshort 92 (chr 92)); [done|apply code_is in E; subst e; cbn; tauto|done]|].
    destruct (N.eqb_spec (code e) 47) as [E|_];
      [apply (Hshort 47 (chr 47)); [done|apply code_is in E; subst e; cbn; tauto|done]|].
    destruct (N.eqb_spec (code e) 98) as [E|_];
      [apply (Hshort 98 (chr 8)); [done|apply code_is in E; subst e; cbn; tauto|done]|].
    destruct (N.eqb_spec (code e) 116) as [E|_];
      [apply (Hshort 116 (chr 9)); [done|apply code_is in E; subst e; cbn; tauto|done]|].
    destruct (N.eqb_spec (code e) 110) as [E|_];
      [apply (Hshort 110 (chr 10)); [done|apply code_is in E; subst e; cbn; tauto|done]|].
    destruct (N.eqb_spec (code e) 102) as [E|_];
      [apply (Hshort 102 (chr 12)); [done|apply code_is in E; subst e; cbn; tauto|done]|].
    destruct (N.eqb_spec (code e) 114) as [E|_];
      [apply (Hshort 114 (chr 13)); [done|apply code_is in E; subst e; cbn; tauto|done]|].
    destruct (N.eqb_spec (code e) 117) as [E|_]; [|done]. apply code_is in E. subst e. change (chr 117) with "u"%char in *.
    clear Hshort.
    destruct s as [|x s]; [done|]. destruct s as [|y s]; [done|]. destruct s as [|z s]; [done|]. destruct s as [|h s]; [done|].
    cbn [String.length] in Hn. destruct (unhex4 x y z h) as [hi|] eqn:Eh; [|done]. apply unhex4_spec in Eh.
    pose proof (hex4_bound _ _ Eh) as Hhi. unfold after_u in Hp.
    destruct ((55296 <=? hi) && (hi <=? 56319)) eqn:Ehi.
    + destruct s as [|k s]; [done|]. destruct s as [|v s]; [done|]. destruct s as [|x' s]; [done|]. destruct s as [|y' s]; [done|].
      destruct s as [|z' s]; [done|]. destruct s as [|h' s]; [done|]. cbn [String.length] in Hn.
      destruct ((code k =? 92) && (code v =? 117)) eqn:Ekv; [|done]. apply andb_prop in Ekv as [Ek Ev].
      apply N.eqb_eq, code_is in Ek, Ev. subst k v.
      destruct (unhex4 x' y' z' h') as [lo|] eqn:Eh'; [|done]. apply unhex4_spec in Eh'.
      destruct ((56320 <=? lo) && (lo <=? 57343)) eqn:Elo; [|done].
      destruct (utf8 _) as [u|] eqn:Eu; [|done]. destruct (parse_str s) as [[t' rest']|] eqn:Es; [|done].
      injection Hp as <- <-. apply utf8_spec in Eu as (_ & b & Hb & ->); [|lia].
      eapply (Hstep _ (of_bytes b) s t'); [|lia| |done|done].
      2:{ apply (char_pair _ _ hi lo b Eh Eh'); [unfold high; lia|unfold low; lia|done]. }
      done.
    + destruct (utf8 hi) as [u|] eqn:Eu; [|done]. destruct (parse_str s) as [[t' rest']|] eqn:Es; [|done].
      injection Hp as <- <-. apply utf8_spec in Eu as (Hsur & b & Hb & ->); [|lia].
      eapply (Hstep _ (of_bytes b) s t'); [|lia| |done|done].
      2:{ apply (char_hex _ hi b Eh); [unfold high; lia|unfold low; lia|done]. }
      done.
  - cbn [parse_str] in Hp. destruct (N.eqb_spec (code c) 34); [done|]. destruct (N.eqb_spec (code c) 92); [done|].
    destruct (N.ltb_spec (code c) 32); [done|]. destruct (parse_str s) as [[t' rest']|] eqn:Es; [|done].
    injection Hp as <- <-. apply (Hstep (lit c) (lit c) s t'); [done|lia| |done|done].
    constructor; [unfold code in *; lia|by intros ->|by intros ->].
Qed.

(** Literals by their form alone. *)
Lemma skip_u x y z t s :
  skip_str (String backslash (String "u"%char (String x (String y (String z (String t s)))))) =
  match unhex4 x y z t with Some _ => skip_str s | None => None end.
Proof. reflexivity. Qed.
Lemma skip_short e s : is_short e = true -> skip_str (String backslash (String e s)) = skip_str s.
Proof. intros H. cbn [skip_str]. change (code backslash =? 34) with false. change (code backslash =? 92) with true. cbn beta iota. by rewrite H. Qed.
Lemma is_short_In e : is_short e = true <-> In e [quote; backslash; "/"; "b"; "f"; "n"; "r"; "t"]%char.
Proof.
  unfold is_short. split.
  - intros H. assert (code e = 34 \/ code e = 92 \/ code e = 47 \/ code e = 98 \/ code e = 116 \/ code e = 110 \/ code e = 102 \/
      code e = 114) as Hc by lia.
    repeat (destruct Hc as [E|Hc]; [apply code_is in E; subst e; cbn; tauto|]). apply code_is in Hc. subst e. cbn. tauto.
  - intros H. repeat (destruct H as [<-|H]; [done|]). done.
Qed.
Lemma skip_form a s : char_form a -> skip_str (a +:+ s) = skip_str s.
Proof.
  intros [c H1 H2 H3|e He|h n Hh].
  - change (lit c +:+ s) with (String c s). cbn [skip_str].
    destruct (N.eqb_spec (code c) 34) as [E|_]; [by apply code_is in E|].
    destruct (N.eqb_spec (code c) 92) as [E|_]; [by apply code_is in E|].
    destruct (N.ltb_spec (code c) 32) as [E|_]; [unfold code in E; lia|]. done.
  - change (String backslash (lit e) +:+ s) with (String backslash (String e s)). by apply skip_short, is_short_In.
  - destruct (hex4_shape _ _ Hh) as (x & y & z & t & -> & E).
    etransitivity; [exact (skip_u x y z t s)|]. by rewrite E.
Qed.
Lemma skip_forms body rest : chars_form body -> skip_str (body +:+ lit quote +:+ rest) = Some rest.
Proof. induction 1 as [|a t Ha Ht IH]; [done|]. by rewrite app_assoc_s, (skip_form a _ Ha). Qed.
Lemma forms_sound n : forall s rest, (String.length s <= n)%nat -> skip_str s = Some rest ->
  exists body, chars_form body /\ s = body +:+ lit quote +:+ rest.
Proof.
  induction n as [|n IH]; intros s rest Hn Hp; (destruct s as [|c s]; [done|]); cbn [String.length] in Hn; [lia|].
  assert (forall a r, String c s = a +:+ r -> (String.length r <= n)%nat -> char_form a -> skip_str r = Some rest ->
    exists body, chars_form body /\ String c s = body +:+ lit quote +:+ rest) as Hstep.
  { intros a r E Hr Ha Hr'. destruct (IH r rest Hr Hr') as (body & Hb & ->).
    exists (a +:+ body). split; [by constructor|]. rewrite E. by rewrite app_assoc_s. }
  cbn [skip_str] in Hp. destruct (N.eqb_spec (code c) 34) as [E|N34].
  { apply code_is in E. subst c. injection Hp as <-. exists ""%string. split; [constructor|done]. }
  destruct (N.eqb_spec (code c) 92) as [E|N92].
  - apply code_is in E. subst c. change (chr 92) with backslash in *.
    destruct s as [|e s]; [done|]. cbn [String.length] in Hn. destruct (is_short e) eqn:Es.
    { apply (Hstep (String backslash (lit e)) s); [done|lia|by apply form_short, is_short_In|done]. }
    destruct (N.eqb_spec (code e) 117) as [E|_]; [|done]. apply code_is in E. subst e. change (chr 117) with "u"%char in *.
    destruct s as [|x s]; [done|]. destruct s as [|y s]; [done|]. destruct s as [|z s]; [done|]. destruct s as [|h s]; [done|].
    cbn [String.length] in Hn. destruct (unhex4 x y z h) as [hi|] eqn:Eh; [|done]. apply unhex4_spec in Eh.
    eapply (Hstep _ s); [|lia|exact (form_hex _ hi Eh)|done]. done.
  - destruct (N.ltb_spec (code c) 32); [done|]. apply (Hstep (lit c) s); [done|lia| |done].
    constructor; [unfold code in *; lia|by intros ->|by intros ->].
Qed.
Lemma char_has_form a b : char_text a b -> chars_form a.
Proof.
  assert (forall a, char_form a -> chars_form a) as H1.
  { intros x Hx. rewrite <- (app_nil_s x). constructor; [done|constructor]. }
  intros [c ? ? ?|e c H|h n ? Hh ? ? ?|h1 h2 n1 n2 ? Hh1 Hh2 ? ? ?].
  - by apply H1; constructor.
  - apply H1, form_short. cbn in H |- *.
    repeat (destruct H as [[= <- <-]|H]; [tauto|]). done.
  - by eapply H1, form_hex.
  - change (String backslash "u" +:+ h1 +:+ String backslash "u" +:+ h2)
      with ((String backslash "u" +:+ h1) +:+ (String backslash "u" +:+ h2)).
    constructor; [by eapply form_hex|]. by eapply H1, form_hex.
Qed.
Lemma forms_app a b : chars_form a -> chars_form b -> chars_form (a +:+ b).
Proof. induction 1 as [|x t Hx Ht IH]; [done|]. intros Hb. rewrite app_assoc_s. constructor; auto. Qed.
Lemma chars_have_form t s : chars_text t s -> chars_form t.
Proof. induction 1 as [|a b t s Ha Ht IH]; [constructor|]. apply forms_app; [by eapply char_has_form|done]. Qed.
Lemma app_cancel_r (a b c : string) : a +:+ c = b +:+ c -> a = b.
Proof.
  revert b. induction a as [|x a IH]; intros [|y b]; [done|intros E|intros E|].
  1,2: exfalso; apply (f_equal String.length) in E; rewrite !length_app_s in E; cbn in E; lia.
  rewrite !app_cons. intros [= -> E]. f_equal. by apply IH.
Qed.
Lemma take_key k t rest : key_text k t -> exists r, t = String quote r /\ take_str (r +:+ rest) = Some (k, rest).
Proof.
  destruct k as [s|]; cbn [key_text].
  - intros (b & Hb & ->). exists (b +:+ lit quote). split; [done|]. rewrite app_assoc_s. unfold take_str.
    by rewrite (parse_chars _ _ _ Hb).
  - intros ((b & Hb & ->) & Hno). exists (b +:+ lit quote). split; [done|]. rewrite app_assoc_s. unfold take_str.
    rewrite (skip_forms _ _ Hb). destruct (parse_str _) as [[s r]|] eqn:E; [|done].
    exfalso. destruct (chars_sound _ _ _ _ (le_n _) E) as (b' & Hb' & E').
    pose proof (skip_forms b' r (chars_have_form _ _ Hb')) as Hs. rewrite <- E', (skip_forms _ _ Hb) in Hs. injection Hs as <-.
    rewrite <- !app_assoc_s in E'. apply app_cancel_r, app_cancel_r in E'. subst b'. apply (Hno s). by exists b.
Qed.
Lemma take_sound s k rest : take_str s = Some (k, rest) ->
  exists t, key_text k t /\ String quote s = t +:+ rest.
Proof.
  unfold take_str. destruct (parse_str s) as [[t r]|] eqn:E.
  - intros [= <- <-]. destruct (chars_sound _ _ _ _ (le_n _) E) as (b & Hb & ->).
    exists (lit quote +:+ b +:+ lit quote). split; [by exists b|]. by rewrite !app_assoc_s.
  - destruct (skip_str s) as [r|] eqn:Es; [|done]. intros [= <- <-].
    destruct (forms_sound _ _ _ (le_n _) Es) as (b & Hb & ->).
    exists (lit quote +:+ b +:+ lit quote). split; [|by rewrite !app_assoc_s]. split; [by exists b|].
    intros t (b' & Hb' & E'). change (lit quote +:+ ?x) with (String quote x) in E'. injection E' as E'.
    apply app_cancel_r in E'. subst b'. by rewrite (parse_chars _ _ _ Hb') in E.
Qed.
Lemma object_some ms l : object ms = JObj l <-> ms = all_keyed l.
Proof.
  split; [|intros ->; apply object_keyed]. unfold object. destruct (mapM keyed ms) as [l'|] eqn:E; [|done].
  intros [= ->]. revert l E. induction ms as [|[k v] ms IH]; intros l; cbn; [intros [= <-]; done|].
  destruct k as [k|]; [|done]. cbn. destruct (mapM keyed ms) as [l'|]; [|done]. intros [= <-]. cbn. f_equal. by apply IH.
Qed.
Lemma object_odd ms : (exists v, In (None, v) ms) -> object ms = JOdd.
Proof.
  intros (v & Hv). unfold object. destruct (mapM keyed ms) as [l|] eqn:E; [|done]. exfalso.
  revert l E. induction ms as [|[k w] ms IH]; intros l; [done|]. cbn. destruct Hv as [[= -> ->]|Hv]; [done|].
  destruct k as [k|]; [|done]. cbn. destruct (mapM keyed ms) as [l'|]; [|done]. intros _. by eapply IH.
Qed.
Lemma object_cases ms : (exists l, object ms = JObj l /\ ms = all_keyed l) \/ (object ms = JOdd /\ exists v, In (None, v) ms).
Proof.
  destruct (object ms) as [| | | | | | |l] eqn:E; try (unfold object in E; by destruct (mapM keyed ms)).
  - right. split; [done|]. unfold object in E. destruct (mapM keyed ms) as [l'|] eqn:E'; [done|]. clear E.
    induction ms as [|[k w] ms IH]; [done|]. cbn in E'. destruct k as [k|]; [|exists w; by left]. cbn in E'.
    destruct (mapM keyed ms); [done|]. destruct IH as (v & Hv); [done|]. exists v. by right.
  - left. exists l. split; [done|]. by apply object_some.
Qed.

(** ** Numbers *)
Notation shown := NilEmpty.string_of_uint.
Lemma shown_digit c d : is_digit c = true -> shown (digit c d) = String c (shown d).
Proof.
  intros H. apply digit_code in H.
  assert (code c = 48 \/ code c = 49 \/ code c = 50 \/ code c = 51 \/ code c = 52 \/ code c = 53 \/ code c = 54 \/
          code c = 55 \/ code c = 56 \/ code c = 57) as Hc by lia.
  repeat (destruct Hc as [E|Hc]; [apply code_is in E; subst c; done|]). apply code_is in Hc. by subst c.
Qed.
Lemma take_split s d r : take_uint s = (d, r) -> s = shown d +:+ r.
Proof.
  revert d r. induction s as [|c s IH]; intros d r; cbn [take_uint]; [intros [= <- <-]; done|].
  destruct (is_digit c) eqn:Ec; [|intros [= <- <-]; done].
  destruct (take_uint s) as [d' r'] eqn:Es. intros [= <- <-]. rewrite shown_digit by done. rewrite app_cons. f_equal.
  by apply IH.
Qed.
Lemma is_digit_of c : is_digit c = true <-> exists n, digit_of c n.
Proof.
  unfold is_digit, digit_of, code. split; [|intros (n & H1 & H2); lia].
  intros H. exists (N_of_ascii c - 48). lia.
Qed.
Lemma shown_digits d : d <> Nil -> digits (shown d).
Proof.
  induction d as [|d IH|d IH|d IH|d IH|d IH|d IH|d IH|d IH|d IH|d IH]; [done|intros _..];
    match goal with |- digits (shown ?x) =>
      let t := eval cbn [NilEmpty.string_of_uint] in (shown x) in
      change (digits t); match t with String ?c _ => 
        assert (exists n, digit_of c n) as (n & Hn) by (by apply is_digit_of);
        destruct d; [exact (digits_one c n Hn)|apply (digits_more c n); [done|by apply IH]..] end end.
Qed.
Lemma digits_shown s : digits s -> exists d, s = shown d /\ d <> Nil.
Proof.
  induction 1 as [c n Hn|c n s Hn Hs (d & -> & Hd)].
  - exists (digit c Nil). assert (is_digit c = true) as Hc by (apply is_digit_of; by exists n).
    split; [by rewrite shown_digit|]. by unfold digit; repeat case_match.
  - exists (digit c d). assert (is_digit c = true) as Hc by (apply is_digit_of; by exists n).
    split; [by rewrite shown_digit|]. by unfold digit; repeat case_match.
Qed.
Lemma decimal_pos d p : decimal (Npos p) (shown d) = Npos (Pos.of_uint_acc d p).
Proof.
  revert p. induction d as [|d IH|d IH|d IH|d IH|d IH|d IH|d IH|d IH|d IH|d IH]; intros p; [done|..];
    cbn [NilEmpty.string_of_uint decimal Pos.of_uint_acc]; rewrite <- IH; f_equal;
    match goal with |- _ + (?a - 48) = _ => let x := eval vm_compute in (a - 48) in change (a - 48) with x end; lia.
Qed.
Lemma decimal_shown d : decimal 0 (shown d) = N.of_uint d.
Proof.
  induction d as [|d IH|d IH|d IH|d IH|d IH|d IH|d IH|d IH|d IH|d IH]; [done|exact IH|..];
    exact (decimal_pos d _).
Qed.
Lemma int_ok_integer d : int_ok d = true <-> integer (shown d).
Proof.
  unfold integer. split.
  - intros H. assert (d <> Nil) as Hd by (by intros ->). split; [by apply shown_digits|].
    destruct d as [|d|d|d|d|d|d|d|d|d|d]; [done|destruct d; [by left|done..]|right; eexists _, _; (split; [reflexivity|done])..].
  - intros (Hd & [E|(c & r & E & Hc)]).
    + destruct d as [|d|d|d|d|d|d|d|d|d|d]; try done. by destruct d.
    + destruct d as [|d|d|d|d|d|d|d|d|d|d]; try done. cbn in E. injection E as <- _. done.
Qed.
(** What may follow the parts of a number. *)
Definition no_digit (rest : string) : Prop := match rest with String c _ => is_digit c = false | EmptyString => True end.
Lemma num_no_digit rest : num_end rest -> no_digit rest.
Proof. destruct rest; [done|]. intros (H & _). exact H. Qed.
Lemma take_digits s rest : digits s -> no_digit rest -> exists d, take_uint (s +:+ rest) = (d, rest) /\ s = shown d /\ d <> Nil.
Proof. intros (d & -> & Hd)%digits_shown Hr. exists d. split; [|done]. by apply take_string_of. Qed.
Lemma frac_head f rest : f = ""%string \/ fraction f -> no_digit rest -> no_digit (f +:+ rest).
Proof. intros [->|(r & _ & ->)]; done. Qed.
Lemma exp_head e rest : e = ""%string \/ exponent e -> no_digit rest -> no_digit (e +:+ rest).
Proof. intros [->|(c & g & r & Hc & _ & _ & ->)]; [done|]. intros _. by destruct Hc as [<-|[<-|[]]]. Qed.
Definition no_dot (rest : string) : Prop := match rest with String c _ => code c <> 46 | EmptyString => True end.
Lemma exp_no_dot e rest : e = ""%string \/ exponent e -> num_end rest -> no_dot (e +:+ rest).
Proof.
  intros [->|(c & g & r & Hc & _ & _ & ->)]; [destruct rest; [done|]; by intros (_ & H & _)|].
  intros _. by destruct Hc as [<-|[<-|[]]].
Qed.
Lemma take_frac_text f rest : f = ""%string \/ fraction f -> no_digit rest -> no_dot rest ->
  take_frac (f +:+ rest) = Some (negb (String.eqb f ""), rest).
Proof.
  intros [->|(r & Hr & ->)] Hd Hdot.
  - destruct rest as [|c rest]; [done|]. change ("" +:+ String c rest) with (String c rest). cbn [take_frac].
    cbn in Hdot. by destruct (N.eqb_spec (code c) 46).
  - destruct (take_digits r rest Hr Hd) as (d & E & _ & Hn).
    transitivity (match take_uint (r +:+ rest) with (Nil, _) => None | (_, rest) => Some (true, rest) end); [done|].
    rewrite E. by destruct d.
Qed.
Lemma take_exp_text e rest : e = ""%string \/ exponent e -> num_end rest ->
  take_exp (e +:+ rest) = Some (negb (String.eqb e ""), rest).
Proof.
  intros [->|(c & g & r & Hc & Hg & Hr & ->)] Hend.
  - destruct rest as [|c rest]; [done|]. change ("" +:+ String c rest) with (String c rest). cbn [take_exp].
    destruct Hend as (_ & _ & H1 & H2). destruct (N.eqb_spec (code c) 101); [done|]. by destruct (N.eqb_spec (code c) 69).
  - destruct (take_digits r rest Hr (num_no_digit _ Hend)) as (d & E & Es & Hn).
    assert (match take_uint (r +:+ rest) with (Nil, _) => None | (_, rest) => Some (true, rest) end = Some (true, rest)) as Ht
      by (rewrite E; by destruct d).
    assert (take_exp (String c (g +:+ r +:+ rest)) = Some (true, rest)) as H.
    { cbn [take_exp]. replace ((code c =? 101) || (code c =? 69)) with true by (by destruct Hc as [<-|[<-|[]]]).
      destruct Hg as [<-|[<-|[<-|[]]]]; [|exact Ht|exact Ht].
      change ("" +:+ r +:+ rest) with (r +:+ rest).
      destruct r as [|c' r]; [inversion Hr|]. rewrite app_cons in *.
      assert (is_digit c' = true) as Hc'.
      { apply is_digit_of. inversion Hr; subst; eauto. }
      apply digit_code in Hc'. replace ((code c' =? 43) || (code c' =? 45)) with false by lia. exact Ht. }
    assert ((lit c +:+ g +:+ r) +:+ rest = String c (g +:+ r +:+ rest)) as -> by (by rewrite !app_assoc_s).
    rewrite H. done.
Qed.
Lemma parse_num_text neg i f e rest :
  integer i -> f = ""%string \/ fraction f -> e = ""%string \/ exponent e -> num_end rest ->
  parse_num neg (i +:+ f +:+ e +:+ rest) =
  Some (if neg || negb (String.eqb f "") || negb (String.eqb e "") then JOther else JNum (decimal 0 i), rest).
Proof.
  intros Hi Hf He Hr. pose proof (num_no_digit _ Hr) as Hd.
  pose proof Hi as [Hds _]. destruct (take_digits i (f +:+ e +:+ rest) Hds) as (d & E & -> & Hn).
  { apply frac_head; [done|]. by apply exp_head. }
  unfold parse_num. rewrite E. apply int_ok_integer in Hi. rewrite Hi.
  rewrite (take_frac_text f) by (done || by apply exp_head || by apply exp_no_dot).
  rewrite (take_exp_text e) by done. by rewrite decimal_shown.
Qed.
Lemma take_frac_sound s b r : take_frac s = Some (b, r) ->
  exists f, (f = ""%string \/ fraction f) /\ s = f +:+ r /\ b = negb (String.eqb f "").
Proof.
  destruct s as [|c s]; cbn [take_frac]; [intros [= <- <-]; exists ""%string; by split_and!; [left| |]|].
  destruct (N.eqb_spec (code c) 46) as [E|_]; [|intros [= <- <-]; exists ""%string; by split_and!; [left| |]].
  apply code_is in E. subst c. destruct (take_uint s) as [d r'] eqn:Et. intros H.
  assert (d <> Nil /\ r' = r /\ b = true) as (Hd & -> & ->) by (destruct d; try done; injection H as <- <-; done).
  apply take_split in Et. subst s. exists ("." +:+ shown d). split_and!; [|done|done]. right. exists (shown d).
  split; [by apply shown_digits|done].
Qed.
Lemma take_exp_sound s b r : take_exp s = Some (b, r) ->
  exists e, (e = ""%string \/ exponent e) /\ s = e +:+ r /\ b = negb (String.eqb e "").
Proof.
  destruct s as [|c s]; cbn [take_exp]; [intros [= <- <-]; exists ""%string; by split_and!; [left| |]|].
  destruct ((code c =? 101) || (code c =? 69)) eqn:E; [|intros [= <- <-]; exists ""%string; by split_and!; [left| |]].
  assert (In c ["e"; "E"]%char) as Hc.
  { assert (code c = 101 \/ code c = 69) as [E'|E'] by lia; apply code_is in E'; subst c; cbn; tauto. }
  intros H.
  assert (exists g s', In g [""; "+"; "-"]%string /\ s = g +:+ s' /\
    match take_uint s' with (Nil, _) => None | (_, rest) => Some (true, rest) end = Some (b, r)) as (g & s' & Hg & -> & H').
  { destruct s as [|x s]; [exists ""%string, ""%string; cbn; tauto|].
    destruct ((code x =? 43) || (code x =? 45)) eqn:Ex.
    - assert (code x = 43 \/ code x = 45) as [E'|E'] by lia; apply code_is in E'; subst x;
        [exists "+"%string, s|exists "-"%string, s]; cbn; tauto.
    - exists ""%string, (String x s). cbn [In]. tauto. }
  destruct (take_uint s') as [d r'] eqn:Et.
  assert (d <> Nil /\ r' = r /\ b = true) as (Hd & -> & ->) by (destruct d; try done; injection H' as <- <-; done).
  apply take_split in Et. subst s'. exists (lit c +:+ g +:+ shown d). split_and!.
  - right. exists c, g, (shown d). split_and!; [done|done|by apply shown_digits|done].
  - by rewrite !app_assoc_s.
  - done.
Qed.
Lemma parse_num_sound neg s v r : parse_num neg s = Some (v, r) ->
  exists t, value_text v (if neg then "-" +:+ t else t) /\ s = t +:+ r.
Proof.
  unfold parse_num. destruct (take_uint s) as [d r0] eqn:Ed. destruct (int_ok d) eqn:Ei; [|done].
  destruct (take_frac r0) as [[bf r1]|] eqn:Ef; [|done]. destruct (take_exp r1) as [[be r2]|] eqn:Ee; [|done].
  intros [= <- <-]. apply take_split in Ed. apply int_ok_integer in Ei.
  apply take_frac_sound in Ef as (f & Hf & -> & ->). apply take_exp_sound in Ee as (e & He & -> & ->). subst s.
  exists (shown d +:+ f +:+ e). split; [|by rewrite !app_assoc_s].
  destruct neg.
  - apply (vt_other "-"); [cbn; tauto|done..].
  - destruct (String.eqb_spec f "") as [->|Hf0].
    + destruct (String.eqb_spec e "") as [->|He0].
      * cbn [orb negb]. rewrite !app_nil_s, <- decimal_shown. by constructor.
      * apply (vt_other "" (shown d) "" e); [cbn; tauto|done|by left|done|done].
    + cbn [orb negb]. apply (vt_other "" (shown d) f e); [cbn; tauto|done|done|done|]. by destruct f.
Qed.

(** ** Values *)
Lemma num_end_white w s : white w -> num_end s -> num_end (w +:+ s).
Proof.
  destruct 1 as [|c w Hc Hw]; [done|]. intros _. rewrite app_cons.
  by destruct Hc as [<-|[<-|[<-|[<-|[]]]]].
Qed.
Lemma integer_head i : integer i -> exists c r, i = String c r /\ is_digit c = true.
Proof. intros [H _]. inversion H; subst; eexists _, _; (split; [reflexivity|]); apply is_digit_of; eauto. Qed.
Lemma string_head s t : string_text s t -> exists r, t = String quote r.
Proof. intros (b & _ & ->). by eexists. Qed.
Lemma key_head k t : key_text k t -> exists r, t = String quote r.
Proof. intros (r & -> & _)%(take_key k t ""). by eexists. Qed.
Lemma value_head v t : value_text v t -> exists c r, t = String c r /\ is_ws c = false /\ code c <> 93 /\ code c <> 125.
Proof.
  assert (forall i s, integer i -> exists c r, i +:+ s = String c r /\ is_ws c = false /\ code c <> 93 /\ code c <> 125) as Hint.
  { intros i s (c & r & -> & Hc%digit_code)%integer_head. exists c, (r +:+ s). split; [done|]. unfold is_ws. lia. }
  destruct 1 as [| | |t Ht|m i f e Hm Hi Hf He Hn|s t Ht|t Ht|w Hw|l t Ht|w Hw|ms l t Ht Hl|ms v t Ht Hv];
    try (eexists _, _; split; [reflexivity|done]).
  - destruct (Hint t "" Ht) as (c & r & E & H). rewrite app_nil_s in E. eauto.
  - destruct Hm as [<-|[<-|[]]]; [exact (Hint i (f +:+ e) Hi)|]. eexists _, _. split; [reflexivity|done].
  - apply string_head in Ht as (r & ->). exists quote, r. done.
  - destruct (key_head None t Ht) as (r & ->). exists quote, r. done.
Qed.
Lemma skip_value v t s : value_text v t -> skip_ws (t +:+ s) = t +:+ s.
Proof. intros (c & r & -> & Hw & _)%value_head. rewrite app_cons. by apply skip_nonws. Qed.
Lemma elems_text_head l t s : elems_text l t ->
  exists c r, skip_ws (t +:+ s) = String c r /\ code c <> 93.
Proof.
  destruct 1 as [w1 v t w2 Hw1 Hv Hw2|w1 v t w2 l r Hw1 Hv Hw2 Hl];
    rewrite !app_assoc_s, skip_white, (skip_value _ _ _ Hv) by done; destruct (value_head _ _ Hv) as (c & r' & -> & _ & H & _);
    eexists _, _; (split; [reflexivity|done]).
Qed.
Lemma members_text_head l t s : members_text l t -> exists r, skip_ws (t +:+ s) = String quote r.
Proof.
  destruct 1 as [w1 k kt w2 w3 v t w4 Hw1 Hk Hw2 Hw3 Hv Hw4|w1 k kt w2 w3 v t w4 l r Hw1 Hk Hw2 Hw3 Hv Hw4 Hl];
    rewrite !app_assoc_s, skip_white by done; destruct (key_head _ _ Hk) as (r' & ->); eexists; reflexivity.
Qed.

Scheme value_text_mut := Minimality for value_text Sort Prop
  with elems_text_mut := Minimality for elems_text Sort Prop
  with members_text_mut := Minimality for members_text Sort Prop.
Combined Scheme texts_ind from value_text_mut, elems_text_mut, members_text_mut.

Definition value_ok (v : json) (t : string) : Prop :=
  forall f w rest, white w -> (String.length t <= f)%nat -> num_end rest ->
    parse_value f (w +:+ t +:+ rest) = Some (v, rest).
Definition elems_ok (l : list json) (t : string) : Prop :=
  forall f rest, (S (String.length t) <= f)%nat -> parse_elems f (t +:+ "]" +:+ rest) = Some (l, rest).
Definition members_ok (l : list (option string * json)) (t : string) : Prop :=
  forall f rest, (S (String.length t) <= f)%nat -> parse_members f (t +:+ "}" +:+ rest) = Some (l, rest).

(** One member and what follows its value. *)
Lemma parse_member f w1 k kt w2 w3 v t w4 s :
  white w1 -> key_text k kt -> white w2 -> white w3 -> white w4 ->
  parse_value f (w3 +:+ t +:+ w4 +:+ s) = Some (v, w4 +:+ s) ->
  parse_members (S f) (w1 +:+ kt +:+ w2 +:+ ":" +:+ w3 +:+ t +:+ w4 +:+ s) =
  match skip_ws s with
  | String c r3 =>
      if code c =? 125 then Some ([(k, v)], r3)
      else if code c =? 44 then
        match parse_members f r3 with
        | Some (l, rest) => Some ((k, v) :: l, rest) | None => None end
      else None
  | EmptyString => None
  end.
Proof.
  intros Hw1 Hk Hw2 Hw3 Hw4 Hv. cbn [parse_members]. rewrite skip_white by done.
  destruct (take_key k kt (w2 +:+ ":" +:+ w3 +:+ t +:+ w4 +:+ s) Hk) as (b & -> & Hb).
  rewrite app_cons. change (skip_ws (String quote ?x)) with (String quote x). cbn beta iota.
  change (code quote =? 34) with true. cbn beta iota. rewrite Hb, skip_white by done.
  change (skip_ws (":" +:+ ?x)) with (String ":"%char x). cbn beta iota.
  change (code ":"%char =? 58) with true. cbn beta iota. rewrite Hv. by rewrite skip_white.
Qed.

Lemma read_texts :
  (forall v t, value_text v t -> value_ok v t) /\
  (forall l t, elems_text l t -> elems_ok l t) /\
  (forall l t, members_text l t -> members_ok l t).
Proof.
  assert (forall c f w s, is_ws c = false -> white w -> parse_value (S f) (w +:+ String c s) = parse_value (S f) (String c s)) as Hskip.
  { intros c f w s Hc Hw. cbn [parse_value]. by rewrite skip_white. }
  assert (forall k t, key_text k t -> value_ok (match k with Some s => JStr s | None => JOdd end) t) as Hlit.
  { intros k t Hk f w rest Hw Hf Hr. destruct (take_key k t rest Hk) as (b & -> & Hb).
    destruct f as [|f]; [cbn in Hf; lia|]. rewrite app_cons. rewrite Hskip by done. cbn [parse_value].
    rewrite skip_nonws by done. cbn beta iota zeta. change (code quote =? 34) with true. cbn beta iota.
    rewrite Hb. by destruct k. }
  assert (forall ms t, members_text ms t -> members_ok ms t -> value_ok (object ms) ("{" +:+ t +:+ "}")) as Hmem.
  { intros l t Ht IH f w rest Hw Hf Hr. destruct f as [|f]; [try rewrite !length_app_s in Hf; cbn in Hf; lia|]. rewrite !length_app_s in Hf.
    cbn [String.length] in Hf. rewrite !app_assoc_s.
    change ("{" +:+ ?x) with (String "{"%char x). rewrite Hskip by done. cbn [parse_value].
    rewrite skip_nonws by done. cbn beta iota zeta. change (code "{"%char =? 34) with false.
    change (code "{"%char =? 91) with false. change (code "{"%char =? 123) with true. cbn beta iota.
    destruct (members_text_head l t ("}" +:+ rest) Ht) as (r & ->).
    change (code quote =? 125) with false. cbn beta iota. rewrite IH by lia. done. }
  apply texts_ind.
  - intros f w rest Hw Hf Hr. destruct f as [|f]; [try rewrite !length_app_s in Hf; cbn in Hf; lia|]. etransitivity; [exact (Hskip "n"%char f w ("ull" +:+ rest) eq_refl Hw)|]. done.
  - intros f w rest Hw Hf Hr. destruct f as [|f]; [try rewrite !length_app_s in Hf; cbn in Hf; lia|]. etransitivity; [exact (Hskip "t"%char f w ("rue" +:+ rest) eq_refl Hw)|]. done.
  - intros f w rest Hw Hf Hr. destruct f as [|f]; [try rewrite !length_app_s in Hf; cbn in Hf; lia|]. etransitivity; [exact (Hskip "f"%char f w ("alse" +:+ rest) eq_refl Hw)|]. done.
  - intros t Ht f w rest Hw Hf Hr.
    pose proof (parse_num_text false t "" "" rest Ht (or_introl eq_refl) (or_introl eq_refl) Hr) as Hp.
    change ("" +:+ "" +:+ rest) with rest in Hp. destruct (integer_head t Ht) as (c & r & -> & Hc).
    destruct f as [|f]; [try rewrite !length_app_s in Hf; cbn in Hf; lia|]. pose proof (digit_code _ Hc) as Hd.
    rewrite app_cons in *. rewrite Hskip by (done || unfold is_ws; lia). cbn [parse_value].
    rewrite skip_nonws by (unfold is_ws; lia). cbn beta iota zeta.
    destruct (N.eqb_spec (code c) 34); [lia|]. destruct (N.eqb_spec (code c) 91); [lia|].
    destruct (N.eqb_spec (code c) 123); [lia|]. destruct (N.eqb_spec (code c) 45); [lia|]. rewrite Hc. exact Hp.
  - intros m i f e Hm Hi Hf He Hn fuel w rest Hw Hlen Hr.
    pose proof (fun neg => parse_num_text neg i f e rest Hi Hf He Hr) as Hp. rewrite !app_assoc_s.
    destruct Hm as [<-|[<-|[]]].
    + change ("" +:+ i +:+ f +:+ e +:+ rest) with (i +:+ f +:+ e +:+ rest).
      destruct (integer_head i Hi) as (c & r & -> & Hc). pose proof (digit_code _ Hc) as Hd.
      destruct fuel as [|fuel]; [rewrite !length_app_s in Hlen; cbn in Hlen; lia|]. specialize (Hp false).
      change (String c r +:+ f +:+ e +:+ rest) with (String c (r +:+ f +:+ e +:+ rest)) in *.
      rewrite Hskip by (done || unfold is_ws; lia). cbn [parse_value].
      rewrite skip_nonws by (unfold is_ws; lia). cbn beta iota zeta.
      destruct (N.eqb_spec (code c) 34); [lia|]. destruct (N.eqb_spec (code c) 91); [lia|].
      destruct (N.eqb_spec (code c) 123); [lia|]. destruct (N.eqb_spec (code c) 45); [lia|]. rewrite Hc, Hp.
      destruct f as [|]; [|done]. destruct e; [done|]. done.
    + destruct fuel as [|fuel]; [rewrite !length_app_s in Hlen; cbn in Hlen; lia|].
      change ("-" +:+ i +:+ f +:+ e +:+ rest) with (String "-"%char (i +:+ f +:+ e +:+ rest)).
      rewrite Hskip by done. etransitivity; [|exact (Hp true)]. done.
  - intros s t Ht. exact (Hlit (Some s) t Ht).
  - intros t Ht. exact (Hlit None t Ht).
  - intros w0 Hw0 f w rest Hw Hf Hr. destruct f as [|f]; [try rewrite !length_app_s in Hf; cbn in Hf; lia|]. rewrite !app_assoc_s.
    change ("[" +:+ ?x) with (String "["%char x). rewrite Hskip by done. cbn [parse_value].
    rewrite skip_nonws by done. cbn beta iota zeta. change (code "["%char =? 34) with false.
    change (code "["%char =? 91) with true. cbn beta iota. rewrite skip_white by done. done.
  - intros l t Ht IH f w rest Hw Hf Hr. destruct f as [|f]; [try rewrite !length_app_s in Hf; cbn in Hf; lia|]. rewrite !length_app_s in Hf.
    cbn [String.length] in Hf. rewrite !app_assoc_s.
    change ("[" +:+ ?x) with (String "["%char x). rewrite Hskip by done. cbn [parse_value].
    rewrite skip_nonws by done. cbn beta iota zeta. change (code "["%char =? 34) with false.
    change (code "["%char =? 91) with true. cbn beta iota.
    destruct (elems_text_head l t ("]" +:+ rest) Ht) as (c & r & -> & Hc).
    destruct (N.eqb_spec (code c) 93); [done|]. rewrite IH by lia. done.
  - intros w0 Hw0 f w rest Hw Hf Hr. destruct f as [|f]; [try rewrite !length_app_s in Hf; cbn in Hf; lia|]. rewrite !app_assoc_s.
    change ("{" +:+ ?x) with (String "{"%char x). rewrite Hskip by done. cbn [parse_value].
    rewrite skip_nonws by done. cbn beta iota zeta. change (code "{"%char =? 34) with false.
    change (code "{"%char =? 91) with false. change (code "{"%char =? 123) with true. cbn beta iota.
    rewrite skip_white by done. done.
  - intros ms l t Ht IH ->. rewrite <- object_keyed. by apply Hmem.
  - intros ms v t Ht IH Hv. rewrite <- (object_odd ms) by (by exists v). by apply Hmem.
  - intros w1 v t w2 Hw1 Hv IH Hw2 f rest Hf. rewrite !length_app_s in Hf. destruct f as [|f]; [lia|].
    rewrite !app_assoc_s. cbn [parse_elems]. rewrite IH; [|done|lia|by apply num_end_white]. by rewrite skip_white.
  - intros w1 v t w2 l r Hw1 Hv IH Hw2 Hl IHl f rest Hf. rewrite !length_app_s in Hf. cbn [String.length] in Hf.
    destruct f as [|f]; [lia|].
    rewrite !app_assoc_s. cbn [parse_elems]. rewrite IH; [|done|lia|by apply num_end_white].
    rewrite skip_white by done. change (skip_ws ("," +:+ ?s)) with (String ","%char s). cbn beta iota.
    change (code ","%char =? 93) with false. change (code ","%char =? 44) with true. cbn beta iota.
    rewrite IHl by lia. done.
  - intros w1 k kt w2 w3 v t w4 Hw1 Hk Hw2 Hw3 Hv IH Hw4 f rest Hf. rewrite !length_app_s in Hf. destruct f as [|f]; [lia|].
    rewrite !app_assoc_s. erewrite parse_member; [|done..|apply IH; [done|lia|by apply num_end_white]]. done.
  - intros w1 k kt w2 w3 v t w4 l r Hw1 Hk Hw2 Hw3 Hv IH Hw4 Hl IHl f rest Hf. rewrite !length_app_s in Hf.
    cbn [String.length] in Hf. destruct f as [|f]; [lia|].
    rewrite !app_assoc_s. erewrite parse_member; [|done..|apply IH; [done|lia|by apply num_end_white]].
    change (skip_ws ("," +:+ ?s)) with (String ","%char s). cbn beta iota.
    change (code ","%char =? 125) with false. change (code ","%char =? 44) with true. cbn beta iota.
    rewrite IHl by lia. done.
Qed.

Lemma prefixed_sound pre s r : prefixed pre s = Some r -> s = pre +:+ r.
Proof.
  revert s. induction pre as [|a pre IH]; intros s; cbn [prefixed]; [intros [= <-]; done|].
  destruct s as [|b s]; [done|]. destruct (Ascii.eqb_spec a b) as [->|]; [|done]. intros H. rewrite app_cons. f_equal. by apply IH.
Qed.
Lemma sound f :
  (forall s v r, parse_value f s = Some (v, r) -> exists w t, white w /\ value_text v t /\ s = w +:+ t +:+ r) /\
  (forall s l r, parse_elems f s = Some (l, r) -> exists t, elems_text l t /\ s = t +:+ "]" +:+ r) /\
  (forall s l r, parse_members f s = Some (l, r) -> exists t, members_text l t /\ s = t +:+ "}" +:+ r).
Proof.
  induction f as [|f (IHv & IHe & IHm)]; [done|]. split_and!.
  - intros s v r Hp. cbn [parse_value] in Hp. destruct (skip_split s) as (w & Hw & Es). exists w.
    destruct (skip_ws s) as [|c s1]; [done|]. cbn beta iota zeta in Hp.
    assert ((exists t, value_text v t /\ String c s1 = t +:+ r) -> exists t, white w /\ value_text v t /\ s = w +:+ t +:+ r) as Hgo.
    { intros (t & Ht & E). exists t. by rewrite <- E. }
    apply Hgo. clear Hgo Es.
    destruct (N.eqb_spec (code c) 34) as [E|_].
    { apply code_is in E. subst c. destruct (take_str s1) as [[k rest]|] eqn:Et; [|done].
      apply take_sound in Et as (t & Ht & E). exists t. destruct k as [k|]; injection Hp as <- <-; (split; [by constructor|done]). }
    destruct (N.eqb_spec (code c) 91) as [E|_].
    { apply code_is in E. subst c. destruct (skip_split s1) as (w1 & Hw1 & Es1).
      destruct (skip_ws s1) as [|d r1] eqn:Ed; [done|]. destruct (N.eqb_spec (code d) 93) as [E|_].
      - apply code_is in E. subst d. injection Hp as <- <-. exists ("[" +:+ w1 +:+ "]"). split; [by constructor|].
        rewrite Es1, !app_assoc_s. done.
      - destruct (parse_elems f s1) as [[l rest]|] eqn:El; [|done]. injection Hp as <- <-.
        apply IHe in El as (t & Ht & ->). exists ("[" +:+ t +:+ "]"). split; [by constructor|]. by rewrite !app_assoc_s. }
    destruct (N.eqb_spec (code c) 123) as [E|_].
    { apply code_is in E. subst c. destruct (skip_split s1) as (w1 & Hw1 & Es1).
      destruct (skip_ws s1) as [|d r1] eqn:Ed; [done|]. destruct (N.eqb_spec (code d) 125) as [E|_].
      - apply code_is in E. subst d. injection Hp as <- <-. exists ("{" +:+ w1 +:+ "}"). split; [by constructor|].
        rewrite Es1, !app_assoc_s. done.
      - destruct (parse_members f s1) as [[l rest]|] eqn:El; [|done]. injection Hp as <- <-.
        apply IHm in El as (t & Ht & ->). exists ("{" +:+ t +:+ "}"). split; [|by rewrite !app_assoc_s].
        destruct (object_cases l) as [(l' & -> & E)|(-> & v & Hv)]; [exact (vt_obj l l' t Ht E)|exact (vt_obj_odd l v t Ht Hv)]. }
    destruct (N.eqb_spec (code c) 45) as [E|_].
    { apply code_is in E. subst c. apply parse_num_sound in Hp as (t & Ht & ->). exists ("-" +:+ t). done. }
    destruct (is_digit c). { apply parse_num_sound in Hp as (t & Ht & E). exists t. done. }
    unfold keyword in Hp. destruct (code c =? 116).
    { destruct (prefixed "true" _) as [x|] eqn:E; [|done]. injection Hp as <- <-. apply prefixed_sound in E.
      exists "true"%string. split; [constructor|done]. }
    destruct (code c =? 102).
    { destruct (prefixed "false" _) as [x|] eqn:E; [|done]. injection Hp as <- <-. apply prefixed_sound in E.
      exists "false"%string. split; [constructor|done]. }
    destruct (code c =? 110); [|done].
    destruct (prefixed "null" _) as [x|] eqn:E; [|done]. injection Hp as <- <-. apply prefixed_sound in E.
    exists "null"%string. split; [constructor|done].
  - intros s l r Hp. cbn [parse_elems] in Hp. destruct (parse_value f s) as [[v r0]|] eqn:Ev; [|done].
    apply IHv in Ev as (w1 & t & Hw1 & Ht & ->). destruct (skip_split r0) as (w2 & Hw2 & Er0).
    destruct (skip_ws r0) as [|c r1]; [done|]. subst r0. destruct (N.eqb_spec (code c) 93) as [E|_].
    { apply code_is in E. subst c. injection Hp as <- <-. exists (w1 +:+ t +:+ w2). split; [by constructor|].
      by rewrite !app_assoc_s. }
    destruct (N.eqb_spec (code c) 44) as [E|_]; [|done]. apply code_is in E. subst c.
    destruct (parse_elems f r1) as [[l' rest]|] eqn:El; [|done]. injection Hp as <- <-.
    apply IHe in El as (t' & Ht' & ->). exists (w1 +:+ t +:+ w2 +:+ "," +:+ t'). split; [by constructor|].
    by rewrite !app_assoc_s.
  - intros s l r Hp. cbn [parse_members] in Hp. destruct (skip_split s) as (w1 & Hw1 & Es).
    destruct (skip_ws s) as [|q r0]; [done|]. subst s. destruct (N.eqb_spec (code q) 34) as [E|_]; [|done].
    apply code_is in E. subst q. destruct (take_str r0) as [[k r1]|] eqn:Ek; [|done].
    apply take_sound in Ek as (kt & Hk & Ek). change (chr 34) with quote. rewrite Ek.
    destruct (skip_split r1) as (w2 & Hw2 & Er1). destruct (skip_ws r1) as [|e r2]; [done|]. subst r1.
    destruct (N.eqb_spec (code e) 58) as [E|_]; [|done]. apply code_is in E. subst e.
    destruct (parse_value f r2) as [[v r3]|] eqn:Ev; [|done]. apply IHv in Ev as (w3 & t & Hw3 & Ht & ->).
    destruct (skip_split r3) as (w4 & Hw4 & Er3). destruct (skip_ws r3) as [|c r4]; [done|]. subst r3.
    destruct (N.eqb_spec (code c) 125) as [E|_].
    { apply code_is in E. subst c. injection Hp as <- <-.
      eexists. split; [exact (mt_last w1 k _ w2 w3 v t w4 Hw1 Hk Hw2 Hw3 Ht Hw4)|]. rewrite !app_assoc_s. done. }
    destruct (N.eqb_spec (code c) 44) as [E|_]; [|done]. apply code_is in E. subst c.
    destruct (parse_members f r4) as [[l' rest]|] eqn:El; [|done]. injection Hp as <- <-.
    apply IHm in El as (t' & Ht' & ->).
    eexists. split; [exact (mt_more w1 k _ w2 w3 v t w4 l' t' Hw1 Hk Hw2 Hw3 Ht Hw4 Ht')|]. rewrite !app_assoc_s. done.
Qed.

Lemma parse_json v t : parse t = Some v <-> json_text v t.
Proof.
  unfold parse. split.
  - destruct (parse_value _ t) as [[v' r]|] eqn:E; [|done]. apply sound in E as (w & u & Hw & Hu & ->).
    destruct (skip_ws r) eqn:Er; [|done]. intros [= <-]. exists w, u, r. split_and!; [done|done|by apply skip_none|done].
  - intros (w1 & u & w2 & Hw1 & Hu & Hw2 & ->).
    rewrite (proj1 read_texts v u Hu); [|done| |].
    + rewrite <- (app_nil_s w2), skip_white by done. done.
    + rewrite !length_app_s. lia.
    + rewrite <- (app_nil_s w2). by apply num_end_white.
Qed.
