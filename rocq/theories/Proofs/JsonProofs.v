(** What is written as JSON is read back unchanged. *)
From Coq Require Import Ascii Decimal DecimalString DecimalN DecimalFacts ZifyBool ZifyN ZifyNat Lia.
From Verif Require Import Model.Base Model.Json.

Lemma app_assoc_s (a b c : string) : (a +:+ b) +:+ c = a +:+ (b +:+ c).
Proof. induction a as [|x a IH]; [done|]. exact (f_equal (String x) IH). Qed.
Lemma app_nil_s (a : string) : a +:+ EmptyString = a.
Proof. induction a as [|x a IH]; [done|]. exact (f_equal (String x) IH). Qed.
Lemma length_app_s (a b : string) : String.length (a +:+ b) = (String.length a + String.length b)%nat.
Proof. induction a as [|x a IH]; [done|]. exact (f_equal S IH). Qed.

(** ** Strings *)
Lemma parse_escaped c s :
  parse_str (escape_char c +:+ s) =
  match parse_str s with Some (t, rest) => Some (String c t, rest) | None => None end.
Proof. destruct c as [[] [] [] [] [] [] [] []]; reflexivity. Qed.
Lemma parse_print_str s rest : parse_str (escape s +:+ one 34 +:+ rest) = Some (s, rest).
Proof.
  induction s as [|c s IH]; [done|]. cbn [escape]. rewrite app_assoc_s, parse_escaped, IH. done.
Qed.

(** ** Numbers *)
Lemma take_digit c s d r : is_digit c = true -> take_uint s = (d, r) -> take_uint (String c s) = (digit c d, r).
Proof. intros Hc Hs. cbn [take_uint]. by rewrite Hc, Hs. Qed.
Lemma take_string_of d rest :
  match rest with String c _ => is_digit c = false | EmptyString => True end ->
  take_uint (NilEmpty.string_of_uint d +:+ rest) = (d, rest).
Proof.
  intros Hr. induction d as [|d IH|d IH|d IH|d IH|d IH|d IH|d IH|d IH|d IH|d IH]; 
    [|match goal with |- take_uint (NilEmpty.string_of_uint ?d' +:+ _) = _ =>
        let t := eval cbn [NilEmpty.string_of_uint] in (NilEmpty.string_of_uint d') in
        match t with String ?c _ => exact (take_digit c _ _ _ eq_refl IH) end end..].
  change (take_uint rest = (Nil, rest)). destruct rest as [|c r]; [done|]. cbn [take_uint]. by rewrite Hr.
Qed.
Lemma nzhead_not_D0 d d' : nzhead d <> D0 d'.
Proof. induction d; cbn; try done. Qed.
Lemma int_ok_print n : int_ok (N.to_uint n) = true.
Proof.
  assert (N.to_uint n = unorm (N.to_uint n)) as E by (by rewrite <- Unsigned.to_of, Unsigned.of_to).
  unfold unorm in E. pose proof (nzhead_not_D0 (N.to_uint n)) as H. revert E H.
  destruct (nzhead (N.to_uint n)) eqn:En; intros E H; rewrite E; try done. by destruct (H u).
Qed.
(** What may follow a number. *)
Definition num_end (rest : string) : Prop :=
  match rest with
  | EmptyString => True
  | String c _ => is_digit c = false /\ code c <> 46 /\ code c <> 101 /\ code c <> 69
  end.
Lemma parse_print_num n rest : num_end rest -> parse_num false (print_num n +:+ rest) = Some (JNum n, rest).
Proof.
  intros Hr. unfold parse_num, print_num. rewrite take_string_of by (destruct rest; [done|by destruct Hr]).
  rewrite int_ok_print. assert (take_frac rest = Some (false, rest)) as ->.
  { destruct rest as [|c r]; [done|]. cbn. destruct Hr as (_ & H & _). destruct (N.eqb_spec (code c) 46); done. }
  assert (take_exp rest = Some (false, rest)) as ->.
  { destruct rest as [|c r]; [done|]. cbn. destruct Hr as (_ & _ & H1 & H2).
    destruct (N.eqb_spec (code c) 101); [done|]. destruct (N.eqb_spec (code c) 69); done. }
  cbn. by rewrite Unsigned.of_to.
Qed.
Lemma string_of_digit d : d <> Nil -> exists c r, NilEmpty.string_of_uint d = String c r /\ is_digit c = true.
Proof. destruct d; intros H; try done; cbn; eexists _, _; (split; [reflexivity|reflexivity]). Qed.
Lemma print_num_head n : exists c r, print_num n = String c r /\ is_digit c = true.
Proof.
  apply string_of_digit. intros E. pose proof (int_ok_print n) as H. by rewrite E in H.
Qed.
Lemma digit_code c : is_digit c = true -> 48 <= code c <= 57.
Proof. unfold is_digit. lia. Qed.

(** ** Values *)
Section json_ind.
  Context (P : json -> Prop).
  Context (Hnull : P JNull) (Hbool : forall b, P (JBool b)) (Hnum : forall n, P (JNum n)) (Hother : P JOther) (Hodd : P JOdd)
    (Hstr : forall s, P (JStr s)) (Harr : forall l, Forall P l -> P (JArr l))
    (Hobj : forall l, Forall (fun x => P x.2) l -> P (JObj l)).
  Fixpoint json_ind' (v : json) : P v :=
    match v with
    | JNull => Hnull | JBool b => Hbool b | JNum n => Hnum n | JOther => Hother | JOdd => Hodd | JStr s => Hstr s
    | JArr l => Harr l ((fix go (l : list json) : Forall P l :=
        match l with [] => Forall_nil_2 _ | v :: r => Forall_cons_2 _ _ _ (json_ind' v) (go r) end) l)
    | JObj l => Hobj l ((fix go (l : list (string * json)) : Forall (fun x => P x.2) l :=
        match l with [] => Forall_nil_2 _
        | x :: r => Forall_cons_2 (fun x => P x.2) x r (json_ind' x.2) (go r) end) l)
    end.
End json_ind.

(** Elements and members with what follows them. *)
Fixpoint print_elems (l : list json) : string :=
  match l with [] => EmptyString | [v] => print v | v :: r => print v +:+ "," +:+ print_elems r end.
Fixpoint print_members (l : list (string * json)) : string :=
  match l with
  | [] => EmptyString
  | [(k, v)] => print_str k +:+ ":" +:+ print v
  | (k, v) :: r => print_str k +:+ ":" +:+ print v +:+ "," +:+ print_members r
  end.
Lemma print_arr l : print (JArr l) = "[" +:+ print_elems l +:+ "]".
Proof. reflexivity. Qed.
Lemma print_obj l : print (JObj l) = "{" +:+ print_members l +:+ "}".
Proof. reflexivity. Qed.

(** The first character of a value is not white space and starts no empty
    container. *)
Lemma print_head v : exists c r, print v = String c r /\ is_ws c = false /\ code c <> 93 /\ code c <> 125.
Proof.
  destruct v as [|[]|n| | |s|l|l]; try (eexists _, _; split; [reflexivity|]; done).
  - destruct (print_num_head n) as (c & r & E & Hd). exists c, r. split; [done|].
    apply digit_code in Hd. unfold is_ws. split; [lia|]. lia.
Qed.
Lemma skip_nonws c r : is_ws c = false -> skip_ws (String c r) = String c r.
Proof. intros H. cbn [skip_ws]. by rewrite H. Qed.
Lemma skip_print v rest : skip_ws (print v +:+ rest) = print v +:+ rest.
Proof. destruct (print_head v) as (c & r & E & Hw & _). rewrite E. exact (skip_nonws c _ Hw). Qed.

Definition reads (v : json) : Prop :=
  forall f rest, (String.length (print v) <= f)%nat -> num_end rest ->
    parse_value f (print v +:+ rest) = Some (v, rest).
Lemma print_nonempty v : (1 <= String.length (print v))%nat.
Proof. destruct (print_head v) as (c & r & -> & _). cbn. lia. Qed.

Lemma reads_elems l : l <> [] -> Forall reads l ->
  forall f rest, (S (String.length (print_elems l)) <= f)%nat ->
    parse_elems f (print_elems l +:+ "]" +:+ rest) = Some (l, rest).
Proof.
  induction l as [|v l IH]; [done|]. intros _ [Hv Hl]%Forall_cons f rest Hf.
  destruct f as [|f]; [lia|]. destruct l as [|v' l].
  - cbn [print_elems] in *. cbn [parse_elems]. rewrite Hv; [|lia|done]. done.
  - change (print_elems (v :: v' :: l)) with (print v +:+ "," +:+ print_elems (v' :: l)) in *.
    rewrite !length_app_s in Hf. cbn [String.length] in Hf.
    rewrite !app_assoc_s. cbn [parse_elems]. rewrite Hv; [|lia|done].
    change (skip_ws ("," +:+ print_elems (v' :: l) +:+ "]" +:+ rest))
      with (String ","%char (print_elems (v' :: l) +:+ "]" +:+ rest)).
    cbn beta iota. change (code ","%char =? 93) with false. change (code ","%char =? 44) with true. cbn beta iota.
    rewrite IH; [done|done|done|lia].
Qed.
Lemma take_print_str k rest : take_str (escape k +:+ one 34 +:+ rest) = Some (Some k, rest).
Proof. unfold take_str. by rewrite parse_print_str. Qed.
Notation all_keyed := (map (fun x : string * json => (Some x.1, x.2))).
Lemma object_keyed l : object (all_keyed l) = JObj l.
Proof.
  unfold object. assert (mapM keyed (all_keyed l) = Some l) as ->; [|done].
  induction l as [|[k v] l IH]; [done|]. cbn. by rewrite IH.
Qed.
Lemma reads_members l : l <> [] -> Forall (fun x => reads x.2) l ->
  forall f rest, (S (String.length (print_members l)) <= f)%nat ->
    parse_members f (print_members l +:+ "}" +:+ rest) = Some (all_keyed l, rest).
Proof.
  assert (forall k s, print_str k +:+ ":" +:+ s = String (chr 34) (escape k +:+ one 34 +:+ (":" +:+ s))) as Hk.
  { intros k s. unfold print_str. rewrite !app_assoc_s. done. }
  induction l as [|[k v] l IH]; [done|]. intros _ [Hv Hl]%Forall_cons f rest Hf. cbn [snd] in Hv.
  destruct f as [|f]; [lia|]. destruct l as [|[k' v'] l].
  - change (print_members [(k, v)]) with (print_str k +:+ ":" +:+ print v) in *.
    rewrite !app_assoc_s. rewrite !length_app_s in Hf. cbn [String.length] in Hf.
    rewrite (Hk k). cbn [parse_members].
    change (skip_ws (String (chr 34) ?s)) with (String (chr 34) s). cbn beta iota.
    change (code (chr 34) =? 34) with true. cbn beta iota. rewrite take_print_str.
    change (skip_ws (":" +:+ ?s)) with (String ":"%char s). cbn beta iota.
    change (code ":"%char =? 58) with true. cbn beta iota.
    rewrite Hv; [|lia|done]. done.
  - change (print_members ((k, v) :: (k', v') :: l))
      with (print_str k +:+ ":" +:+ print v +:+ "," +:+ print_members ((k', v') :: l)) in *.
    rewrite !app_assoc_s. rewrite !length_app_s in Hf. cbn [String.length] in Hf.
    rewrite (Hk k). cbn [parse_members].
    change (skip_ws (String (chr 34) ?s)) with (String (chr 34) s). cbn beta iota.
    change (code (chr 34) =? 34) with true. cbn beta iota. rewrite take_print_str.
    change (skip_ws (":" +:+ ?s)) with (String ":"%char s). cbn beta iota.
    change (code ":"%char =? 58) with true. cbn beta iota.
    rewrite Hv; [|lia|done].
    change (skip_ws ("," +:+ ?s)) with (String ","%char s). cbn beta iota.
    change (code ","%char =? 125) with false. change (code ","%char =? 44) with true. cbn beta iota.
    rewrite IH; [done|done|done|lia].
Qed.

Lemma members_head x l : exists r, print_members (x :: l) = String (chr 34) r.
Proof. destruct x as [k v], l as [|[k' v'] l]; cbn; eexists; reflexivity. Qed.
Lemma elems_head v l : exists c r, print_elems (v :: l) = String c r /\ is_ws c = false /\ code c <> 93.
Proof.
  destruct (print_head v) as (c & r & E & Hw & H93 & _). destruct l as [|v' l].
  - exists c, r. done.
  - change (print_elems (v :: v' :: l)) with (print v +:+ "," +:+ print_elems (v' :: l)). rewrite E.
    exists c, (r +:+ "," +:+ print_elems (v' :: l)). done.
Qed.

Lemma reads_all v : reads v.
Proof.
  induction v as [|b|n| | |s|l Hl|l Hl] using json_ind'; intros f rest Hf Hr.
  - destruct f; [cbn in Hf; lia|]. done.
  - destruct f; [destruct b; cbn in Hf; lia|]. by destruct b.
  - destruct (print_num_head n) as (c & r & E & Hd). change (print (JNum n)) with (print_num n) in *.
    destruct f; [rewrite E in Hf; cbn in Hf; lia|]. pose proof (parse_print_num n _ Hr) as Hp. rewrite E in *.
    cbn [parse_value]. pose proof (digit_code _ Hd) as Hc.
    change (String c r +:+ rest) with (String c (r +:+ rest)) in *. rewrite skip_nonws by (unfold is_ws; lia).
    cbn beta iota zeta.
    destruct (N.eqb_spec (code c) 34); [lia|]. destruct (N.eqb_spec (code c) 91); [lia|].
    destruct (N.eqb_spec (code c) 123); [lia|]. destruct (N.eqb_spec (code c) 45); [lia|]. by rewrite Hd.
  - destruct f; [cbn in Hf; lia|]. cbn [print].
    change (parse_num false ("0.5" +:+ rest) = Some (JOther, rest)). unfold parse_num.
    change (take_uint ("0.5" +:+ rest)) with (D0 Nil, ".5" +:+ rest). cbn beta iota.
    change (int_ok (D0 Nil)) with true. cbn beta iota.
    assert (take_frac (".5" +:+ rest) = Some (true, rest)) as ->.
    { destruct rest as [|c r]; [done|]. destruct Hr as (Hd & _).
      change (take_frac (".5" +:+ String c r))
        with (match (let '(d, x) := take_uint (String c r) in (digit "5" d, x)) with
              | (Nil, _) => None | (_, x) => Some (true, x) end).
      cbn [take_uint]. by rewrite Hd. }
    assert (take_exp rest = Some (false, rest)) as ->; [|done].
    destruct rest as [|c r]; [done|]. cbn. destruct Hr as (_ & _ & H1 & H2).
    destruct (N.eqb_spec (code c) 101); [done|]. destruct (N.eqb_spec (code c) 69); done.
  - destruct f; [vm_compute in Hf; lia|]. vm_compute. reflexivity.
  - pose proof (print_nonempty (JStr s)). destruct f; [lia|]. cbn [print]. unfold print_str. rewrite !app_assoc_s.
    cbn [parse_value]. change (skip_ws (one 34 +:+ ?s)) with (String (chr 34) s). cbn beta iota zeta.
    change (code (chr 34) =? 34) with true. cbn beta iota. by rewrite take_print_str.
  - pose proof (print_nonempty (JArr l)). rewrite print_arr in *. destruct f; [lia|]. rewrite !app_assoc_s. cbn [parse_value].
    change (skip_ws ("[" +:+ ?s)) with (String "["%char s). cbn beta iota zeta.
    change (code "["%char =? 34) with false. change (code "["%char =? 91) with true. cbn beta iota.
    rewrite !length_app_s in Hf. cbn [String.length] in Hf.
    destruct l as [|v l]; [done|]. pose proof (reads_elems (v :: l) ltac:(done) Hl f rest ltac:(lia)) as He.
    destruct (elems_head v l) as (c & r & E & Hw & H93). rewrite E in *.
    change (String c r +:+ ?s) with (String c (r +:+ s)) in *. rewrite skip_nonws by done.
    cbn beta iota. destruct (N.eqb_spec (code c) 93); [done|]. by rewrite He.
  - pose proof (print_nonempty (JObj l)). rewrite print_obj in *. destruct f; [lia|]. rewrite !app_assoc_s. cbn [parse_value].
    change (skip_ws ("{" +:+ ?s)) with (String "{"%char s). cbn beta iota zeta.
    change (code "{"%char =? 34) with false. change (code "{"%char =? 91) with false.
    change (code "{"%char =? 123) with true. cbn beta iota.
    rewrite !length_app_s in Hf. cbn [String.length] in Hf.
    destruct l as [|x l]; [done|]. pose proof (reads_members (x :: l) ltac:(done) Hl f rest ltac:(lia)) as He.
    destruct (members_head x l) as (r & E). rewrite E in *.
    change (String (chr 34) r +:+ ?s) with (String (chr 34) (r +:+ s)) in *. rewrite skip_nonws by done.
    cbn beta iota. change (code (chr 34) =? 125) with false. cbn beta iota. by rewrite He, object_keyed.
Qed.
Lemma parse_print v : parse (print v) = Some v.
Proof.
  unfold parse. pose proof (reads_all v (S (String.length (print v))) EmptyString ltac:(lia) I) as H.
  rewrite app_nil_s in H. by rewrite H.
Qed.
