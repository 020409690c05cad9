From Coq Require Import Ascii.
From Coq Require Import ZifyBool ZifyN ZifyNat Lia.
From Verif Require Import Model.Base Model.Utils Spec.UtilsSpec.

Definition pick (d : N) : option ascii := String.get (N.to_nat (N.shiftr d 26)) charset.
Lemma pick_shift d : N.shiftr d 26 = d / 67108864.
Proof. by rewrite N.shiftr_div_pow2. Qed.
Lemma get_none s n : String.get n s = None <-> (String.length s <= n)%nat.
Proof.
  revert n. induction s as [|c s IH]; intros n; cbn; [split; [lia|done]|].
  destruct n; [split; [done|lia]|]. rewrite IH. lia.
Qed.
Lemma pick_usable d : usable d <-> exists c, pick d = Some c.
Proof.
  unfold usable, pick. rewrite pick_shift. destruct (String.get _ _) eqn:E.
  - split; [eauto|]. intros _. assert (~ (62 <= N.to_nat (d / 67108864))%nat); [|lia].
    intros H. change 62%nat with (String.length charset) in H. apply get_none in H. congruence.
  - apply get_none in E. change (String.length charset) with 62%nat in E. split; [lia|]. by intros [? ?].
Qed.
Definition alnumb (c : ascii) : bool :=
  let n := N_of_ascii c in ((48 <=? n) && (n <=? 57)) || ((65 <=? n) && (n <=? 90)) || ((97 <=? n) && (n <=? 122)).
Lemma alnumb_spec c : alnumb c = true <-> alnum c.
Proof. unfold alnumb, alnum. lia. Qed.
Fixpoint all_alnumb (s : string) : bool :=
  match s with EmptyString => true | String c r => alnumb c && all_alnumb r end.
Lemma get_alnum s n c : all_alnumb s = true -> String.get n s = Some c -> alnumb c = true.
Proof.
  revert n. induction s as [|a s IH]; intros n; [by destruct n|]. cbn [all_alnumb String.get].
  rewrite andb_true_iff. intros [Ha Hs]. destruct n; [by intros [= <-]|]. by apply IH.
Qed.
Lemma pick_alnum d c : pick d = Some c -> alnum c.
Proof. intros H. apply alnumb_spec. exact (get_alnum charset _ c eq_refl H). Qed.

(** Index of a character in the charset. *)
Definition index_of (c : ascii) : N :=
  let n := N_of_ascii c in if n <=? 57 then n + 4 else if n <=? 90 then n - 65 else n - 71.
Fixpoint all_ascii (P : ascii -> bool) (n : nat) : bool :=
  match n with O => true | S m => P (ascii_of_nat m) && all_ascii P m end.
Lemma all_ascii_spec P : all_ascii P 256 = true -> forall c, P c = true.
Proof.
  intros H c. assert (Hn : (nat_of_ascii c < 256)%nat) by apply nat_ascii_bounded.
  rewrite <- (ascii_nat_embedding c). revert Hn H. generalize (nat_of_ascii c). generalize 256%nat.
  intros m. induction m as [|m IH]; intros n Hn; [lia|]. cbn [all_ascii]. rewrite andb_true_iff. intros [H1 H2].
  destruct (decide (n = m)) as [->|]; [done|]. apply IH; [lia|done].
Qed.
Lemma index_get_all : forall c, (if alnumb c then
  match String.get (N.to_nat (index_of c)) charset with Some c' => Ascii.eqb c' c | None => false end && (index_of c <? 62)
  else true) = true.
Proof. apply all_ascii_spec. vm_compute. done. Qed.
Lemma index_get c : alnum c -> String.get (N.to_nat (index_of c)) charset = Some c /\ index_of c < 62.
Proof.
  intros H%alnumb_spec. pose proof (index_get_all c) as Hi. rewrite H in Hi. apply andb_true_iff in Hi as [H1 H2].
  destruct (String.get _ _) as [c'|]; [|done]. apply Ascii.eqb_eq in H1 as ->. split; [done|lia].
Qed.
Fixpoint all_below (P : nat -> bool) (n : nat) : bool :=
  match n with O => true | S m => P m && all_below P m end.
Lemma all_below_spec P n : all_below P n = true -> forall i, (i < n)%nat -> P i = true.
Proof.
  induction n as [|n IH]; intros H i Hi; [lia|]. cbn [all_below] in H. apply andb_true_iff in H as [H1 H2].
  destruct (decide (i = n)) as [->|]; [done|]. apply IH; [done|lia].
Qed.
Lemma get_index i c : String.get i charset = Some c -> N.of_nat i = index_of c.
Proof.
  intros H. assert (Hi : (i < 62)%nat).
  { assert (~ (62 <= i)%nat); [|lia]. intros Hle. change 62%nat with (String.length charset) in Hle.
    apply get_none in Hle. congruence. }
  pose proof (all_below_spec (fun i => match String.get i charset with
    | Some c => N.of_nat i =? index_of c | None => false end) 62) as Ha.
  assert (Hc : all_below (fun i => match String.get i charset with
    | Some c => N.of_nat i =? index_of c | None => false end) 62 = true) by (vm_compute; done).
  specialize (Ha Hc i Hi). cbn beta in Ha. rewrite H in Ha. lia.
Qed.
Lemma pick_exact d c : alnum c -> (pick d = Some c <-> index_of c * 67108864 <= d < (index_of c + 1) * 67108864).
Proof.
  intros Hc. unfold pick. rewrite pick_shift.
  assert (Hdiv : d / 67108864 = index_of c <-> index_of c * 67108864 <= d < (index_of c + 1) * 67108864).
  { pose proof (N.div_mod d 67108864 ltac:(lia)) as Hd. pose proof (N.mod_lt d 67108864 ltac:(lia)) as Hm.
    split; [intros <-; lia|]. intros [H1 H2]. symmetry. apply (N.div_unique _ _ _ (d - index_of c * 67108864)); lia. }
  rewrite <- Hdiv. split.
  - intros H. apply get_index in H. lia.
  - intros ->. by apply index_get.
Qed.

(** ** Whole strings *)
Lemma sample_step d rest : sample (d :: rest) =
  match pick d with Some c => Some (c, rest) | None => sample rest end.
Proof. done. Qed.
Lemma sample_some ds c rest : sample ds = Some (c, rest) ->
  exists skipped d, ds = skipped ++ d :: rest /\ Forall (fun x => ~ usable x) skipped /\ pick d = Some c.
Proof.
  induction ds as [|d ds IH]; [done|]. rewrite sample_step. destruct (pick d) as [c'|] eqn:E.
  - intros [= -> ->]. exists [], d. split; [done|]. split; [by apply Forall_nil|done].
  - intros H. destruct (IH H) as (sk & d' & -> & Hs & Hp). exists (d :: sk), d'. split; [done|].
    split; [|done]. apply Forall_cons. split; [|done]. intros [c' Hc]%pick_usable. congruence.
Qed.
Lemma sample_none ds : sample ds = None <-> Forall (fun x => ~ usable x) ds.
Proof.
  induction ds as [|d ds IH]; [split; [intros; by apply Forall_nil|done]|]. rewrite sample_step, Forall_cons.
  destruct (pick d) as [c'|] eqn:E.
  - split; [done|]. intros [Hn _]. destruct Hn. apply pick_usable. eauto.
  - rewrite IH. split; [|tauto]. intros H. split; [|done]. intros [c' Hc]%pick_usable. congruence.
Qed.
Definition picks (n : nat) (ds : list N) : list ascii := take n (omap pick ds).
Lemma omap_unusable l : Forall (fun x => ~ usable x) l -> omap pick l = [].
Proof.
  induction 1 as [|x l Hx Hl IH]; [done|]. cbn [omap list_omap]. destruct (pick x) eqn:E; [|exact IH].
  destruct Hx. apply pick_usable. eauto.
Qed.
Lemma get_random_some n ds s rest : get_random n ds = Some (s, rest) ->
  exists used, ds = used ++ rest /\ chars s = omap pick used /\ length (chars s) = n.
Proof.
  revert ds s rest. induction n as [|n IH]; intros ds s rest; cbn [get_random].
  - intros [= <- <-]. exists []. done.
  - destruct (sample ds) as [[c r]|] eqn:E; [|done]. destruct (get_random n r) as [[s' r']|] eqn:E2; [|done].
    intros [= <- <-]. destruct (sample_some _ _ _ E) as (sk & d & -> & Hs & Hp).
    destruct (IH _ _ _ E2) as (used & -> & Hu & Hlen). exists (sk ++ d :: used).
    split; [by rewrite <- app_assoc|]. split; [|by cbn; rewrite <- Hlen].
    rewrite omap_app, (omap_unusable sk Hs).
    change (omap pick (d :: used)) with (match pick d with Some y => y :: omap pick used | None => omap pick used end).
    rewrite Hp, <- Hu. done.
Qed.
Lemma get_random_enough n ds : (exists s rest, get_random n ds = Some (s, rest)) <->
  (n <= length (List.filter (fun d => bool_decide (usable d)) ds))%nat.
Proof.
  revert ds. induction n as [|n IH]; intros ds; [split; [lia|cbn; eauto]|]. cbn [get_random].
  destruct (sample ds) as [[c r]|] eqn:E.
  - destruct (sample_some _ _ _ E) as (sk & d & -> & Hs & Hp).
    rewrite List.filter_app, List.app_length. cbn [List.filter].
    assert (List.filter (fun d => bool_decide (usable d)) sk = []) as ->.
    { clear -Hs. induction Hs as [|x l Hx Hl IH]; [done|]. cbn [List.filter]. by rewrite bool_decide_eq_false_2. }
    rewrite bool_decide_eq_true_2 by (apply pick_usable; eauto). cbn [length].
    specialize (IH r). split.
    + intros (s & rest & H). destruct (get_random n r) as [[s' r']|] eqn:E2; [|done].
      assert (n <= length (List.filter (fun d => bool_decide (usable d)) r))%nat; [apply IH; eauto|lia].
    + intros H. destruct IH as [_ IH]. destruct IH as (s & rest & ->); [lia|]. eauto.
  - apply sample_none in E. split; [by intros (? & ? & ?)|].
    assert (List.filter (fun d => bool_decide (usable d)) ds = []) as ->; [|cbn; lia].
    clear -E. induction E as [|x l Hx Hl IH]; [done|]. cbn [List.filter]. by rewrite bool_decide_eq_false_2.
Qed.
Lemma get_random_all s : Forall alnum (chars s) ->
  exists ds, Forall word ds /\ length ds = String.length s /\ get_random (String.length s) ds = Some (s, []).
Proof.
  induction s as [|c s IH]; intros H; [by exists []|]. apply Forall_cons in H as [Hc Hs].
  destruct (IH Hs) as (ds & Hw & Hl & Hg). exists (index_of c * 67108864 :: ds).
  pose proof (index_get c Hc) as [_ Hi]. split; [apply Forall_cons; split; [unfold word; lia|done]|].
  split; [cbn; by rewrite Hl|]. cbn [String.length get_random]. rewrite sample_step.
  rewrite (proj2 (pick_exact _ c Hc)) by lia. by rewrite Hg.
Qed.
Lemma omap_alnum l : Forall alnum (omap pick l).
Proof.
  induction l as [|d l IH]; [by apply Forall_nil|]. cbn [omap list_omap]. destruct (pick d) eqn:E; [|exact IH].
  apply Forall_cons. split; [by apply (pick_alnum d)|exact IH].
Qed.

(** ** Exchanging two strings *)
(** The word with the characters [a] and [b] exchanged. *)
Definition swapw (a b : ascii) (d : N) : N :=
  if decide (pick d = Some a) then d - index_of a * 67108864 + index_of b * 67108864
  else if decide (pick d = Some b) then d - index_of b * 67108864 + index_of a * 67108864
  else d.
Lemma swapw_pick a b d : alnum a -> alnum b ->
  pick (swapw a b d) = match pick d with
                       | Some c => Some (if decide (c = a) then b else if decide (c = b) then a else c)
                       | None => None end.
Proof.
  intros Ha Hb. unfold swapw. destruct (decide (pick d = Some a)) as [E|E].
  - rewrite E, decide_True by done. apply (pick_exact _ a Ha) in E. apply (pick_exact _ b Hb). lia.
  - destruct (decide (pick d = Some b)) as [E2|E2].
    + rewrite E2. rewrite decide_False by congruence. rewrite decide_True by done.
      apply (pick_exact _ b Hb) in E2. apply (pick_exact _ a Ha). lia.
    + destruct (pick d) as [c|]; [|done]. by rewrite !decide_False by congruence.
Qed.
Lemma swapw_inv a b d : alnum a -> alnum b -> swapw a b (swapw a b d) = d.
Proof.
  intros Ha Hb. pose proof (swapw_pick a b d Ha Hb) as Hp. unfold swapw at 1. rewrite Hp. clear Hp.
  pose proof (pick_exact d a Ha) as Ea. pose proof (pick_exact d b Hb) as Eb. unfold swapw.
  destruct (pick d) as [c|].
  - destruct (decide (c = a)) as [->|Hca].
    + pose proof (proj1 Ea eq_refl). rewrite (decide_True (P := Some a = Some a)) by done.
      destruct (decide (Some b = Some a)) as [[= ->]|]; [lia|]. rewrite decide_True by done. lia.
    + rewrite (decide_False (P := Some c = Some a)) by congruence. destruct (decide (c = b)) as [->|Hcb].
      * pose proof (proj1 Eb eq_refl). rewrite !decide_True by done. lia.
      * rewrite (decide_False (P := Some c = Some b)) by congruence. by rewrite !decide_False by congruence.
  - by rewrite !decide_False by done.
Qed.
Lemma swapw_word a b d : alnum a -> alnum b -> word d -> word (swapw a b d).
Proof.
  intros Ha Hb Hw. pose proof (index_get a Ha) as [_ Hia]. pose proof (index_get b Hb) as [_ Hib]. unfold swapw, word in *.
  destruct (decide _) as [E|_]; [apply (pick_exact _ a Ha) in E; lia|].
  destruct (decide _) as [E|_]; [apply (pick_exact _ b Hb) in E; lia|done].
Qed.
(** The same along the characters of two strings. *)
Fixpoint exchange (ps : list (ascii * ascii)) (ds : list N) : list N :=
  match ds with
  | [] => []
  | d :: r =>
      match ps with
      | [] => d :: r
      | (a, b) :: ps' => match pick d with Some _ => swapw a b d :: exchange ps' r | None => d :: exchange ps r end
      end
  end.
Definition alnums (ps : list (ascii * ascii)) : Prop := Forall (fun p => alnum (fst p) /\ alnum (snd p)) ps.
Lemma exchange_nil ds : exchange [] ds = ds.
Proof. by destruct ds. Qed.
Lemma exchange_inv ps ds : alnums ps -> exchange ps (exchange ps ds) = ds.
Proof.
  revert ps. induction ds as [|d r IH]; intros ps Hp; [done|]. destruct ps as [|[a b] ps]; [done|].
  pose proof Hp as [[Ha Hb] Hps]%Forall_cons. cbn [fst snd] in *. cbn [exchange]. destruct (pick d) as [c|] eqn:E.
  - cbn [exchange]. rewrite swapw_pick, E, swapw_inv by done. by rewrite IH.
  - cbn [exchange]. rewrite E. by rewrite IH.
Qed.
Lemma exchange_length ps ds : length (exchange ps ds) = length ds.
Proof.
  revert ps. induction ds as [|d r IH]; intros ps; [done|]. destruct ps as [|[a b] ps]; [done|].
  cbn [exchange]. destruct (pick d); cbn; by rewrite IH.
Qed.
Lemma exchange_words ps ds : alnums ps -> Forall word ds -> Forall word (exchange ps ds).
Proof.
  revert ps. induction ds as [|d r IH]; intros ps Hp Hw; [done|]. destruct ps as [|[a b] ps]; [done|].
  pose proof Hp as [[Ha Hb] Hps]%Forall_cons. apply Forall_cons in Hw as [Hd Hr]. cbn [exchange].
  destruct (pick d); apply Forall_cons; (split; [|by apply IH]); [by apply swapw_word|done].
Qed.
Lemma get_random_cons n d r : get_random (S n) (d :: r) =
  match pick d with
  | Some c => match get_random n r with Some (s, rest) => Some (String c s, rest) | None => None end
  | None => get_random (S n) r
  end.
Proof. cbn [get_random]. rewrite sample_step. by destruct (pick d). Qed.
Lemma exchange_random s1 s2 ds rest : String.length s1 = String.length s2 -> Forall alnum (chars s1) -> Forall alnum (chars s2) ->
  get_random (String.length s1) ds = Some (s1, rest) ->
  get_random (String.length s1) (exchange (zip (chars s1) (chars s2)) ds) = Some (s2, rest).
Proof.
  revert s2 ds. induction s1 as [|a s1 IH]; intros [|b s2] ds Hl H1 H2; try done.
  { cbn [chars list_ascii_of_string zip zip_with]. by rewrite exchange_nil. }
  injection Hl as Hl. pose proof H1 as [Ha H1']%Forall_cons. pose proof H2 as [Hb H2']%Forall_cons.
  cbn [String.length]. cbn [chars list_ascii_of_string zip zip_with].
  fold (chars s1). fold (chars s2). change (zip_with pair (chars s1) (chars s2)) with (zip (chars s1) (chars s2)).
  induction ds as [|d r IHd]; [done|]. rewrite get_random_cons. cbn [exchange]. destruct (pick d) as [c|] eqn:E.
  - destruct (get_random (String.length s1) r) as [[s' rest']|] eqn:Er; [|done]. intros [= -> -> ->].
    rewrite get_random_cons, swapw_pick, E, decide_True by done.
    by rewrite (IH s2 r Hl H1' H2' Er).
  - intros H. rewrite get_random_cons, E. by apply IHd.
Qed.
Lemma zip_alnums s1 s2 : Forall alnum (chars s1) -> Forall alnum (chars s2) -> alnums (zip (chars s1) (chars s2)).
Proof.
  generalize (chars s1), (chars s2). intros l1 l2 H1. revert l2.
  induction H1 as [|a l1 Ha H1 IH]; intros l2 H2; [by apply Forall_nil|].
  destruct H2 as [|b l2 Hb H2]; [by apply Forall_nil|]. apply Forall_cons. split; [done|]. by apply IH.
Qed.
Lemma exchange_random_iff s1 s2 ds rest : String.length s1 = String.length s2 -> Forall alnum (chars s1) -> Forall alnum (chars s2) ->
  get_random (String.length s1) ds = Some (s1, rest) <->
  get_random (String.length s1) (exchange (zip (chars s1) (chars s2)) ds) = Some (s2, rest).
Proof.
  intros Hl H1 H2. split; [by apply exchange_random|]. intros H.
  rewrite Hl in H. apply (exchange_random s2 s1) in H; [|done..]. rewrite <- Hl in H.
  assert (exchange (zip (chars s2) (chars s1)) (exchange (zip (chars s1) (chars s2)) ds) = ds) as Hx; [|by rewrite Hx in H].
  clear -H1 H2. revert H1 H2. generalize (chars s1), (chars s2). intros l1 l2 H1 H2. revert l1 l2 H1 H2.
  induction ds as [|d r IH]; intros l1 l2 H1 H2; [done|].
  destruct H1 as [|a l1 Ha H1]; [by destruct l2|]. destruct H2 as [|b l2 Hb H2]; [done|].
  cbn [zip zip_with exchange]. destruct (pick d) as [c|] eqn:E; cbn [exchange].
  - rewrite swapw_pick, E by done.
    assert (swapw b a (swapw a b d) = d) as ->.
    { rewrite <- (swapw_inv a b d) at 2 by done. generalize (swapw a b d). intros x. unfold swapw.
      pose proof (pick_exact x a Ha) as Ea. pose proof (pick_exact x b Hb) as Eb.
      destruct (decide (pick x = Some a)) as [E1|E1], (decide (pick x = Some b)) as [E2|E2]; try done.
      rewrite E1 in E2. by injection E2 as ->. }
    f_equal. by apply IH.
  - rewrite E. f_equal. apply (IH (a :: l1) (b :: l2)); by constructor.
Qed.
