(** Requests to a module that does what its commands say. *)
From Coq Require Import ZifyBool ZifyN ZifyNat Lia.
From Verif Require Import Model.Base Model.Defense Model.MCaptcha Model.HashCache Model.Master Model.Json Model.Serde
  Model.Redis Model.RedisActor Spec.DefenseSpec Spec.SerdeSpec Spec.ModuleSpec Proofs.JsonProofs Proofs.SerdeProofs.

Definition create_of (m : mcaptcha) : create_mcaptcha := CreateMCaptcha (d_levels (m_defense m)) (m_duration m).
Definition challenge_of (m : cache_pow) : add_challenge :=
  AddChallenge (cp_difficulty_factor m) (cp_duration m) (cp_string m).
Definition word_of (a : rask) : word :=
  match a with
  | AkVisit id => WVisit id
  | AkAdd id m => WAdd id (to_string encode_create (create_of m))
  | AkRename a b => WRename a b
  | AkRemove id => WDelete id
  | AkCache m => WStore (cp_key m) (to_string encode_challenge (challenge_of m))
  | AkRetrieve m => WFetch (vr_key m) (vr_token m)
  | AkExists id => WExists id
  | AkCount id => WCount id
  | AkDrop m => WDrop (vr_key m) (vr_token m)
  end.

Lemma ex_word_of x : ex_word x = Some (word_of (ex_ask x)).
Proof. destruct x as [a r lo]. destruct a; reflexivity. Qed.
Lemma words_of h : words h = word_of <$> carried_out h.
Proof.
  unfold words, carried_out. induction (List.filter obeyed h) as [|x l IH]; [done|].
  cbn [omap list_omap fmap list_fmap]. rewrite ex_word_of. by f_equal.
Qed.

Lemma create_payload m : ok_mcaptcha m ->
  from_str decode_create (to_string encode_create (create_of m)) = Some (create_of m).
Proof. intros (_ & [Hl _] & Hd). apply (survives_dec _ _ ok_create dec_create). by split. Qed.
Lemma challenge_payload m : ok_cache_pow m ->
  from_str decode_challenge (to_string encode_challenge (challenge_of m)) = Some (challenge_of m).
Proof. intros Hm. apply (survives_dec _ _ ok_challenge dec_challenge). exact Hm. Qed.

Lemma kept_site_of h n : Forall ok_ask h ->
  kept_site (word_of <$> h) n = (fun x => (create_of x.1, x.2)) <$> site_under h n.
Proof.
  intros Hok. revert n. induction Hok as [|a h Ha Hok IH]; intros n; [done|].
  destruct a; cbn [fmap list_fmap word_of kept_site site_under]; try apply IH.
  - rewrite IH. destruct (site_under h n) as [[m k]|]; [|done]. cbn. by destruct (String.eqb n id).
  - rewrite (create_payload m Ha). destruct (String.eqb n id); [done|apply IH].
  - rewrite IH. destruct (site_under h a) as [[m k]|]; cbn [fmap option_fmap option_map fst snd];
      [|apply IH]. destruct (String.eqb n b); [done|]. destruct (String.eqb n a); [done|apply IH].
  - destruct (String.eqb n id); [done|apply IH].
Qed.
Lemma kept_challenge_of h n s : Forall ok_ask h ->
  kept_challenge (word_of <$> h) n s = challenge_of <$> last_issued h n s.
Proof.
  intros Hok. induction Hok as [|a h Ha Hok IH]; [done|].
  destruct a; cbn [fmap list_fmap word_of kept_challenge last_issued]; try apply IH.
  - rewrite (challenge_payload m Ha). cbn [challenge_of ac_challenge].
    destruct (String.eqb n (cp_key m) && String.eqb s (cp_string m)); [done|apply IH].
  - destruct (String.eqb n (vr_key m) && String.eqb s (vr_token m)); [done|apply IH].
Qed.
Lemma carried_ok h : Forall (fun x => ok_ask (ex_ask x)) h -> Forall ok_ask (carried_out h).
Proof.
  intros H. unfold carried_out. apply Forall_fmap. induction H as [|x h Hx _ IH]; [apply Forall_nil_2|].
  cbn [List.filter]. destruct (obeyed x); [by apply Forall_cons|done].
Qed.

Lemma able_there h a : Forall ok_ask h -> able (word_of <$> h) (word_of a) <-> asks_for h a.
Proof.
  intros H. destruct a; cbn [word_of able asks_for]; try done.
  - rewrite (kept_site_of _ _ H), fmap_is_Some. done.
  - rewrite (kept_challenge_of _ _ _ H), fmap_is_Some. done.
  - rewrite (kept_site_of _ _ H), fmap_is_Some. done.
Qed.

Lemma answer_right h a v : Forall ok_ask h -> honest (word_of <$> h) (word_of a) v ->
  exists y, (op ← request a; Some (rc_answer op (RrVal v))) = Some (Val y) /\ right_answer h a y.
Proof.
  intros Hok. destruct a; cbn [word_of honest request master_action cache_action mbind option_bind lift rc_answer].
  - intros (c & k & s & x & Hk & -> & Hd & Hdur & Hdiff). rewrite (kept_site_of _ _ Hok) in Hk.
    destruct (site_under h id) as [[m k']|] eqn:Hs; [|done]. injection Hk as <- <-.
    cbn [fst create_of cm_duration cm_levels] in Hdur, Hdiff. apply elem_of_list_fmap in Hdiff as (l & Hdiff & Hl).
    eexists. split; [|cbn [right_answer]; exists m, k', l; split; [done|]; split; [done|reflexivity]].
    cbn. rewrite Hd. destruct x as [u d]. cbn in *. by subst.
  - intros _. eexists. by split.
  - intros _. eexists. by split.
  - intros _. eexists. by split.
  - intros _. eexists. by split.
  - intros (c & s & x & Hk & -> & Hd & Hdur & Hdiff). rewrite (kept_challenge_of _ _ _ Hok) in Hk.
    destruct (last_issued h (vr_key m) (vr_token m)) as [q|] eqn:Hs; [|done]. injection Hk as <-.
    cbn [challenge_of ac_duration ac_difficulty] in Hdur, Hdiff.
    eexists. split; [|cbn [right_answer]; exists q; split; [done|reflexivity]].
    cbn. rewrite Hd. destruct x as [u d]. cbn in *. by subst.
  - intros ->. rewrite (kept_site_of _ _ Hok). cbn [right_answer].
    destruct (site_under h id) as [[m k]|]; eexists; split; try reflexivity.
  - intros (c & k & z & Hk & -> & Hz). rewrite (kept_site_of _ _ Hok) in Hk.
    destruct (site_under h id) as [[m k']|] eqn:Hs; [|done]. injection Hk as <- <-. cbn [snd] in *.
    eexists. split; [reflexivity|]. cbn [right_answer]. exists m, k', (as_usize z). split; [done|]. split; [|reflexivity].
    unfold as_usize. assert (z mod 18446744073709551616 <= z)%Z by (apply Z.mod_le; lia).
    assert (0 <= z mod 18446744073709551616)%Z by (apply Z.mod_pos_bound; lia). lia.
  - intros _. eexists. by split.
Qed.
Lemma answer_failed a e : exists y, (op ← request a; Some (rc_answer op (RrErr e))) = Some (Val y) /\ failed_with e y.
Proof. destruct a; cbn; eexists; split; reflexivity. Qed.
