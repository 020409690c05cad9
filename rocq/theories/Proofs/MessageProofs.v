(** What the derived readers of messages take. *)
From Coq Require Import ZifyBool ZifyN ZifyNat Lia.
From Verif Require Import Model.Base Model.Defense Model.MCaptcha Model.HashCache Model.Pow Model.Json Model.Serde
  Spec.JsonSpec Proofs.GrammarProofs.

Lemma values_app k l1 l2 : values_of k (l1 ++ l2) = values_of k l1 ++ values_of k l2.
Proof. apply omap_app. Qed.
Lemma values_cons k x l : values_of k (x :: l) = if String.eqb x.1 k then x.2 :: values_of k l else values_of k l.
Proof. unfold values_of. cbn. by destruct (String.eqb x.1 k). Qed.
Lemma values_none k l : values_of k l = [] <-> forall x, In x l -> x.1 <> k.
Proof.
  induction l as [|y l IH]; [done|]. rewrite values_cons. destruct (String.eqb_spec y.1 k) as [E|E].
  - split; [done|]. intros H. destruct (H y); [by left|done].
  - rewrite IH. split; intros H x; [intros [<-|Hx]; auto|]. intros Hx. apply H. by right.
Qed.
Lemma values_only k l v : values_of k l = [v] <-> only l k v.
Proof.
  unfold only. split.
  - induction l as [|[k' v'] l IH]; [done|]. rewrite values_cons. destruct (String.eqb_spec (k', v').1 k) as [E|E]; cbn in *.
    + intros [= -> Hl]. subst k'. exists [], l. split; [done|]. by apply values_none.
    + intros (l1 & l2 & -> & H)%IH. exists ((k', v') :: l1), l2. split; [done|]. intros x [<-|Hx]; auto.
  - intros (l1 & l2 & -> & H). rewrite values_app, values_cons. cbn. rewrite String.eqb_refl.
    assert (values_of k l1 = []) as ->. { apply values_none. intros x Hx. apply H, in_or_app. by left. }
    assert (values_of k l2 = []) as ->. { apply values_none. intros x Hx. apply H, in_or_app. by right. }
    done.
Qed.
Lemma fields_struct ks vs v : fields ks v = Some vs <-> struct ks vs v.
Proof.
  unfold fields, struct. split.
  - destruct v as [| | | | | |l|l]; try done.
    + destruct (Nat.eqb_spec (length l) (length ks)); [|done]. intros [= ->]. by right.
    + intros H. left. exists l. split; [done|]. apply mapM_Some in H. apply (Forall2_impl _ _ _ _ H). intros k x.
      destruct (values_of k l) as [|y [|]] eqn:E; try done. intros [= ->]. by apply values_only.
  - intros [(l & -> & H)|[-> H]].
    + apply mapM_Some. apply (Forall2_impl _ _ _ _ H). intros k x Hk%values_only. by rewrite Hk.
    + by rewrite (proj2 (Nat.eqb_eq _ _) H).
Qed.

Definition takes {A} (dec : json -> option A) (is : A -> json -> Prop) : Prop :=
  forall v x, dec v = Some x <-> is x v.
Lemma takes_u32 : takes de_u32 is_u32.
Proof.
  intros v x. unfold de_u32, uint_le, is_u32. split.
  - destruct v; try done. destruct (N.leb_spec n u32_max); [|done]. by intros [= ->].
  - intros [H ->]. by rewrite (proj2 (N.leb_le x u32_max) H).
Qed.
Lemma takes_u64 : takes de_u64 is_u64.
Proof.
  intros v x. unfold de_u64, uint_le, is_u64. split.
  - destruct v; try done. destruct (N.leb_spec n u64_max); [|done]. by intros [= ->].
  - intros [H ->]. by rewrite (proj2 (N.leb_le x u64_max) H).
Qed.
Lemma takes_string : takes de_string is_string.
Proof. intros v x. unfold de_string, is_string. split; [destruct v; try done; by intros [= ->]|by intros ->]. Qed.
Lemma takes_list {A} (dec : json -> option A) is : takes dec is -> takes (de_vec dec) (is_list is).
Proof.
  intros H v x. unfold de_vec, is_list. split.
  - destruct v as [| | | | | |l|]; try done. intros Hl%mapM_Some. exists l. split; [done|].
    apply Forall2_flip. apply (Forall2_impl _ _ _ _ Hl). intros a b Hab. by apply H.
  - intros (vs & -> & Hl). apply mapM_Some. apply Forall2_flip in Hl. apply (Forall2_impl _ _ _ _ Hl). intros a b Hab. by apply H.
Qed.

(** The readers of structs with two, three and four fields. *)
Lemma has2 k1 k2 (p1 p2 : json -> Prop) v :
  has [(k1, p1); (k2, p2)] v <-> exists a b, fields [k1; k2] v = Some [a; b] /\ p1 a /\ p2 b.
Proof.
  unfold has. split.
  - intros (vs & Hs & H). apply Forall2_cons_inv_l in H as (a & vs1 & Ha & H & ->).
    apply Forall2_cons_inv_l in H as (b & vs2 & Hb & H & ->). apply Forall2_nil_inv_l in H as ->.
    exists a, b. split; [by apply fields_struct|done].
  - intros (a & b & Hs & Ha & Hb). exists [a; b]. split; [by apply fields_struct|]. by repeat constructor.
Qed.
Lemma has3 k1 k2 k3 (p1 p2 p3 : json -> Prop) v :
  has [(k1, p1); (k2, p2); (k3, p3)] v <->
  exists a b c, fields [k1; k2; k3] v = Some [a; b; c] /\ p1 a /\ p2 b /\ p3 c.
Proof.
  unfold has. split.
  - intros (vs & Hs & H). apply Forall2_cons_inv_l in H as (a & vs1 & Ha & H & ->).
    apply Forall2_cons_inv_l in H as (b & vs2 & Hb & H & ->). apply Forall2_cons_inv_l in H as (c & vs3 & Hc & H & ->).
    apply Forall2_nil_inv_l in H as ->. exists a, b, c. split; [by apply fields_struct|done].
  - intros (a & b & c & Hs & Ha & Hb & Hc). exists [a; b; c]. split; [by apply fields_struct|]. by repeat constructor.
Qed.
Lemma has4 k1 k2 k3 k4 (p1 p2 p3 p4 : json -> Prop) v :
  has [(k1, p1); (k2, p2); (k3, p3); (k4, p4)] v <->
  exists a b c d, fields [k1; k2; k3; k4] v = Some [a; b; c; d] /\ p1 a /\ p2 b /\ p3 c /\ p4 d.
Proof.
  unfold has. split.
  - intros (vs & Hs & H). apply Forall2_cons_inv_l in H as (a & vs1 & Ha & H & ->).
    apply Forall2_cons_inv_l in H as (b & vs2 & Hb & H & ->). apply Forall2_cons_inv_l in H as (c & vs3 & Hc & H & ->).
    apply Forall2_cons_inv_l in H as (d & vs4 & Hd & H & ->).
    apply Forall2_nil_inv_l in H as ->. exists a, b, c, d. split; [by apply fields_struct|done].
  - intros (a & b & c & d & Hs & Ha & Hb & Hc & Hd). exists [a; b; c; d]. split; [by apply fields_struct|]. by repeat constructor.
Qed.
Lemma takes2 {A B T} k1 k2 (d1 : json -> option A) (d2 : json -> option B) (mk : A -> B -> T) f1 f2 i1 i2 dec (is : T -> json -> Prop) :
  (forall v, dec v = match fields [k1; k2] v with Some [a; b] => x ← d1 a; y ← d2 b; Some (mk x y) | _ => None end) ->
  (forall t, is t = has [(k1, i1 (f1 t)); (k2, i2 (f2 t))]) ->
  takes d1 i1 -> takes d2 i2 -> (forall t, mk (f1 t) (f2 t) = t) -> (forall x y, f1 (mk x y) = x /\ f2 (mk x y) = y) ->
  takes dec is.
Proof.
  intros Hd Hi H1 H2 E1 E2 v t. rewrite Hd, Hi, has2. split.
  - destruct (fields _ v) as [[|a [|b [|]]]|]; try done. intros (x & Hx & (y & Hy & [= <-])%bind_Some)%bind_Some.
    destruct (E2 x y) as (-> & ->). exists a, b. split; [done|]. split; [by apply H1|by apply H2].
  - intros (a & b & -> & Ha%H1 & Hb%H2). rewrite Ha. cbn [mbind option_bind]. rewrite Hb. cbn [mbind option_bind]. by rewrite E1.
Qed.
Lemma takes3 {A B C T} k1 k2 k3 (d1 : json -> option A) (d2 : json -> option B) (d3 : json -> option C) (mk : A -> B -> C -> T)
    f1 f2 f3 i1 i2 i3 dec (is : T -> json -> Prop) :
  (forall v, dec v = match fields [k1; k2; k3] v with
     Some [a; b; c] => x ← d1 a; y ← d2 b; z ← d3 c; Some (mk x y z) | _ => None end) ->
  (forall t, is t = has [(k1, i1 (f1 t)); (k2, i2 (f2 t)); (k3, i3 (f3 t))]) ->
  takes d1 i1 -> takes d2 i2 -> takes d3 i3 -> (forall t, mk (f1 t) (f2 t) (f3 t) = t) ->
  (forall x y z, f1 (mk x y z) = x /\ f2 (mk x y z) = y /\ f3 (mk x y z) = z) -> takes dec is.
Proof.
  intros Hd Hi H1 H2 H3 E1 E2 v t. rewrite Hd, Hi, has3. split.
  - destruct (fields _ v) as [[|a [|b [|c [|]]]]|]; try done.
    intros (x & Hx & (y & Hy & (z & Hz & [= <-])%bind_Some)%bind_Some)%bind_Some.
    destruct (E2 x y z) as (-> & -> & ->). exists a, b, c. split; [done|]. split_and!; [by apply H1|by apply H2|by apply H3].
  - intros (a & b & c & -> & Ha%H1 & Hb%H2 & Hc%H3). rewrite Ha. cbn [mbind option_bind]. rewrite Hb. cbn [mbind option_bind].
    rewrite Hc. cbn [mbind option_bind]. by rewrite E1.
Qed.
Lemma takes4 {A B C D T} k1 k2 k3 k4 (d1 : json -> option A) (d2 : json -> option B) (d3 : json -> option C)
    (d4 : json -> option D) (mk : A -> B -> C -> D -> T) f1 f2 f3 f4 i1 i2 i3 i4 dec (is : T -> json -> Prop) :
  (forall v, dec v = match fields [k1; k2; k3; k4] v with
     Some [a; b; c; d] => x ← d1 a; y ← d2 b; z ← d3 c; u ← d4 d; Some (mk x y z u) | _ => None end) ->
  (forall t, is t = has [(k1, i1 (f1 t)); (k2, i2 (f2 t)); (k3, i3 (f3 t)); (k4, i4 (f4 t))]) ->
  takes d1 i1 -> takes d2 i2 -> takes d3 i3 -> takes d4 i4 -> (forall t, mk (f1 t) (f2 t) (f3 t) (f4 t) = t) ->
  (forall x y z u, f1 (mk x y z u) = x /\ f2 (mk x y z u) = y /\ f3 (mk x y z u) = z /\ f4 (mk x y z u) = u) -> takes dec is.
Proof.
  intros Hd Hi H1 H2 H3 H4 E1 E2 v t. rewrite Hd, Hi, has4. split.
  - destruct (fields _ v) as [[|a [|b [|c [|d [|]]]]]|]; try done.
    intros (x & Hx & (y & Hy & (z & Hz & (u & Hu & [= <-])%bind_Some)%bind_Some)%bind_Some)%bind_Some.
    destruct (E2 x y z u) as (-> & -> & -> & ->). exists a, b, c, d. split; [done|].
    split_and!; [by apply H1|by apply H2|by apply H3|by apply H4].
  - intros (a & b & c & d & -> & Ha%H1 & Hb%H2 & Hc%H3 & Hd'%H4). rewrite Ha. cbn [mbind option_bind]. rewrite Hb.
    cbn [mbind option_bind]. rewrite Hc. cbn [mbind option_bind]. rewrite Hd'. cbn [mbind option_bind]. by rewrite E1.
Qed.

Lemma takes_level : takes decode_level is_level.
Proof. eapply (takes2 _ _ de_u32 de_u32 Level _ _ is_u32 is_u32); [done|done|exact takes_u32|exact takes_u32|by intros []|done]. Qed.
Lemma takes_defense : takes decode_defense is_defense.
Proof.
  eapply (takes2 _ _ (de_vec decode_level) de_u64 Defense _ _ (is_list is_level) is_u64);
    [done|done|exact (takes_list _ _ takes_level)|exact takes_u64|by intros []|done].
Qed.
Lemma takes_mcaptcha : takes decode_mcaptcha is_mcaptcha.
Proof.
  eapply (takes3 _ _ _ de_u32 decode_defense de_u64 MCaptcha _ _ _ is_u32 is_defense is_u64);
    [done|done|exact takes_u32|exact takes_defense|exact takes_u64|by intros []|done].
Qed.
Lemma takes_create : takes decode_create is_create.
Proof.
  eapply (takes2 _ _ (de_vec decode_level) de_u64 CreateMCaptcha _ _ (is_list is_level) is_u64);
    [done|done|exact (takes_list _ _ takes_level)|exact takes_u64|by intros []|done].
Qed.
Lemma takes_visit : takes decode_visit is_visit.
Proof. eapply (takes2 _ _ de_u64 de_u32 AddVisitorResult _ _ is_u64 is_u32); [done|done|exact takes_u64|exact takes_u32|by intros []|done]. Qed.
Lemma takes_challenge : takes decode_challenge is_challenge.
Proof.
  eapply (takes3 _ _ _ de_u32 de_u64 de_string AddChallenge _ _ _ is_u32 is_u64 is_string);
    [done|done|exact takes_u32|exact takes_u64|exact takes_string|by intros []|done].
Qed.
Lemma takes_cache_pow : takes decode_cache_pow is_cache_pow.
Proof.
  eapply (takes4 _ _ _ _ de_string de_u32 de_u64 de_string CachePoW _ _ _ _ is_string is_u32 is_u64 is_string);
    [done|done|exact takes_string|exact takes_u32|exact takes_u64|exact takes_string|by intros []|done].
Qed.
Lemma takes_cached : takes decode_cached is_cached.
Proof.
  eapply (takes3 _ _ _ de_string de_u32 de_u64 CachedPoWConfig _ _ _ is_string is_u32 is_u64);
    [done|done|exact takes_string|exact takes_u32|exact takes_u64|by intros []|done].
Qed.
Lemma takes_result : takes decode_result is_result.
Proof.
  eapply (takes3 _ _ _ de_string de_string de_u64 CacheResult _ _ _ is_string is_string is_u64);
    [done|done|exact takes_string|exact takes_string|exact takes_u64|by intros []|done].
Qed.
Lemma takes_verify : takes decode_verify is_verify.
Proof.
  eapply (takes2 _ _ de_string de_string VerifyCaptchaResult _ _ is_string is_string);
    [done|done|exact takes_string|exact takes_string|by intros []|done].
Qed.
Lemma takes_pow_config : takes decode_pow_config is_pow_config.
Proof.
  eapply (takes3 _ _ _ de_string de_u32 de_string PoWConfig _ _ _ is_string is_u32 is_string);
    [done|done|exact takes_string|exact takes_u32|exact takes_string|by intros []|done].
Qed.
Lemma takes_work : takes decode_work is_work.
Proof.
  eapply (takes4 _ _ _ _ de_string de_string de_u64 de_string Work _ _ _ _ is_string is_string is_u64 is_string);
    [done|done|exact takes_string|exact takes_string|exact takes_u64|exact takes_string|by intros []|done].
Qed.
Lemma takes_site f : takes (decode_site f) (is_site f).
Proof.
  eapply (takes2 f _ de_string decode_mcaptcha pair fst snd is_string is_mcaptcha);
    [done|done|exact takes_string|exact takes_mcaptcha|by intros []|done].
Qed.
Lemma takes_rename : takes decode_rename is_rename.
Proof.
  eapply (takes2 _ _ de_string de_string pair fst snd is_string is_string);
    [done|done|exact takes_string|exact takes_string|by intros []|done].
Qed.

(** Entries inserted one by one: the last of each name remains. *)
Lemma inserted {V} (ms : list (string * V)) (acc : gmap string V) k x :
  foldl (fun acc y => <[y.1 := y.2]> acc) acc ms !! k = Some x <->
  (exists ms1 ms2, ms = ms1 ++ (k, x) :: ms2 /\ forall y, In y ms2 -> y.1 <> k) \/
  (acc !! k = Some x /\ forall y, In y ms -> y.1 <> k).
Proof.
  revert acc. induction ms as [|[k' x'] ms IH]; intros acc; cbn [foldl].
  - split; [by intros H; right|]. intros [(ms1 & ms2 & E & _)|[H _]]; [by destruct ms1|done].
  - rewrite IH. cbn [fst snd]. split.
    + intros [(ms1 & ms2 & -> & H)|[H1 H2]]; [left; by exists ((k', x') :: ms1), ms2|].
      apply lookup_insert_Some in H1 as [[-> ->]|[Hne H1]].
      * left. by exists [], ms.
      * right. split; [done|]. intros y [<-|Hy]; [done|auto].
    + intros [(ms1 & ms2 & E & H)|[H1 H2]].
      * destruct ms1 as [|z ms1]; [injection E as -> -> ->; right; by rewrite lookup_insert|].
        injection E as _ ->. left. by exists ms1, ms2.
      * right. split; [|intros y Hy; apply H2; by right]. rewrite lookup_insert_ne; [done|].
        apply (H2 (k', x')). by left.
Qed.
Lemma takes_dump : takes decode_dump is_dump.
Proof.
  intros v m. unfold decode_dump, is_dump. split.
  - destruct v as [| | | | | | |l]; try done. intros (ms & Hms%mapM_Some & [= <-])%bind_Some. exists l, ms. split; [done|]. split.
    + apply Forall2_flip. apply (Forall2_impl _ _ _ _ Hms). intros [k j] y (x & Hx & [= <-])%bind_Some. cbn in *.
      split; [done|]. by apply takes_mcaptcha.
    + intros k x. rewrite inserted, lookup_empty. split; [intros [H|[H _]]; [done|done]|by left].
  - intros (l & ms & -> & Hl & Hm).
    assert (mapM (fun x : string * json => m ← decode_mcaptcha x.2; Some (x.1, m)) l = Some ms) as ->.
    { apply mapM_Some. apply Forall2_flip in Hl. apply (Forall2_impl _ _ _ _ Hl). intros [k j] [k' x] [E H]. cbn in *. subst k'.
      apply takes_mcaptcha in H. by rewrite H. }
    cbn [mbind option_bind]. f_equal. apply map_eq. intros k. apply option_eq. intros x. rewrite inserted, lookup_empty, Hm.
    split; [intros [H|[H _]]; [done|done]|by left].
Qed.

Lemma takes_reads {A} (dec : json -> option A) is : takes dec is -> reads_exactly dec is.
Proof.
  intros H t x. unfold from_str. rewrite bind_Some. split; intros (v & Hv & Hx); exists v; (split; [by apply parse_json|by apply H]).
Qed.
