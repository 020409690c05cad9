(** Proofs about text in replies of Redis. *)
From Coq Require Import Ascii DecimalString Decimal.
From Coq Require Import ZifyBool ZifyN ZifyNat Lia.
From Verif Require Import Model.Base Model.Json Model.Redis Spec.ReplySpec.

(** The number with digits [d] after those of [acc]. *)
Fixpoint digits_on (acc : N) (d : uint) : N :=
  match d with
  | Nil => acc
  | D0 d => digits_on (10 * acc) d | D1 d => digits_on (10 * acc + 1) d | D2 d => digits_on (10 * acc + 2) d
  | D3 d => digits_on (10 * acc + 3) d | D4 d => digits_on (10 * acc + 4) d | D5 d => digits_on (10 * acc + 5) d
  | D6 d => digits_on (10 * acc + 6) d | D7 d => digits_on (10 * acc + 7) d | D8 d => digits_on (10 * acc + 8) d
  | D9 d => digits_on (10 * acc + 9) d
  end.
Lemma of_uint_acc_on d : forall acc, N.pos (Pos.of_uint_acc d acc) = digits_on (N.pos acc) d.
Proof. induction d; intros acc; cbn [Pos.of_uint_acc digits_on]; [done|..]; rewrite IHd; f_equal; lia. Qed.
Lemma of_uint_on d : N.of_uint d = digits_on 0 d.
Proof.
  unfold N.of_uint. induction d; cbn [Pos.of_uint digits_on]; [done|by rewrite IHd|..]; by rewrite of_uint_acc_on.
Qed.
Lemma char_digit c o :
  uint_of_char c o = match digit_value c, o with
    | Some v, Some d => Some (match v with 0 => D0 | 1 => D1 | 2 => D2 | 3 => D3 | 4 => D4 | 5 => D5 | 6 => D6 | 7 => D7
                              | 8 => D8 | _ => D9 end d)
    | _, _ => None
    end.
Proof. destruct o as [d|]; [|by destruct (digit_value c)]. by destruct c as [[] [] [] [] [] [] [] []]. Qed.
Lemma digit_small c v : digit_value c = Some v -> v <= 9.
Proof. unfold digit_value. case_decide; [|done]. intros [= <-]. lia. Qed.
Lemma read_uint s : forall acc, read_on acc s = digits_on acc <$> NilEmpty.uint_of_string s.
Proof.
  induction s as [|c s IH]; intros acc; [done|]. cbn [read_on NilEmpty.uint_of_string]. rewrite char_digit.
  destruct (digit_value c) as [v|] eqn:Hv; [|done]. rewrite IH. destruct (NilEmpty.uint_of_string s) as [d|]; [|done].
  apply digit_small in Hv. cbn [fmap option_fmap option_map]. f_equal.
  assert (v = 0 \/ v = 1 \/ v = 2 \/ v = 3 \/ v = 4 \/ v = 5 \/ v = 6 \/ v = 7 \/ v = 8 \/ v = 9) as H by lia.
  destruct H as [-> | [-> | [-> | [-> | [-> | [-> | [-> | [-> | [-> | ->]]]]]]]]]; cbn [digits_on]; try done.
  by rewrite N.add_0_r.
Qed.
Lemma digits_text s : digits s = decimal s.
Proof.
  destruct s as [|c s]; [done|]. unfold digits, decimal. rewrite read_uint.
  destruct (NilEmpty.uint_of_string (String c s)) as [d|]; [|done]. cbn. by rewrite of_uint_on.
Qed.
Lemma number_text s : number s = unsigned_text s.
Proof.
  destruct s as [|c s]; [done|]. unfold number, unsigned_text, code. rewrite !digits_text.
  by destruct c as [[] [] [] [] [] [] [] []].
Qed.
Lemma znumber_text s : znumber s = signed_text s.
Proof.
  destruct s as [|c s]; [done|]. unfold znumber, signed_text, code. rewrite !digits_text, number_text.
  destruct c as [[] [] [] [] [] [] [] []]; cbn -[decimal unsigned_text];
    by destruct (decimal s) || destruct (unsigned_text _).
Qed.
