(** Specification vocabulary for the Redis client: the number that a text in a
    reply stands for, and the commands that are sent. *)
From Coq Require Import Ascii.
From Verif Require Import Model.Base Model.Redis.

Definition digit_value (c : ascii) : option N :=
  let k := N_of_ascii c in if decide (48 <= k /\ k <= 57) then Some (k - 48) else None.
(** [acc] is the number read so far. *)
Fixpoint read_on (acc : N) (s : string) : option N :=
  match s with
  | EmptyString => Some acc
  | String c r => match digit_value c with Some d => read_on (10 * acc + d) r | None => None end
  end.
Definition decimal (s : string) : option N := match s with EmptyString => None | _ => read_on 0 s end.
(** A sign, if any, comes first; a minus only where negative numbers exist. *)
Definition unsigned_text (s : string) : option N :=
  match s with String "+" r => decimal r | _ => decimal s end.
Definition signed_text (s : string) : option Z :=
  match s with
  | String "-" r => match decimal r with Some n => Some (- Z.of_N n)%Z | None => None end
  | _ => match unsigned_text s with Some n => Some (Z.of_N n) | None => None end
  end.

(** The commands that the operations of the client send. *)
Inductive client_sends : list string -> Prop :=
| CsVisitor id : client_sends (ro_cmd (r_add_visitor id))
| CsAdd id m : client_sends (ro_cmd (r_add_mcaptcha id m))
| CsExists id : client_sends (ro_cmd (r_check_captcha_exists id))
| CsDelete id : client_sends (ro_cmd (r_delete_captcha id))
| CsRename a b : client_sends (ro_cmd (r_rename_captcha a b))
| CsChallenge id c : client_sends (ro_cmd (r_add_challenge id c))
| CsGet m : client_sends (ro_cmd (r_get_challenge m))
| CsDrop m : client_sends (ro_cmd (r_delete_challenge m))
| CsVisitors id : client_sends (ro_cmd (r_get_visitors id))
| CsAddToken m : client_sends (ro_cmd (r_add_token m))
| CsGetToken m : client_sends (ro_cmd (r_get_token m))
| CsDeleteToken m : client_sends (ro_cmd (r_delete_token m)).
