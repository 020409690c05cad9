(** Model of the texts of errors: /repo/src/errors.rs:27-115 ([derive_more::Display]). *)
From Verif Require Import Model.Base.
Local Open Scope string_scope.

(** The text of each variant. [RedisError] shows the library's text, which is what the variant carries here;
    [RecvError] shows tokio's. errors.rs:103, 108: the two texts with a line break. *)
Definition newline : string := String (Ascii.ascii_of_nat 10) "".
(** errors.rs:27-115. *)
Definition display (e : captcha_error) : string :=
  match e with
  | LevelEmpty => "LevelBuilder should have atleaset one level configured"
  | DifficultyFactorZero => "difficulty factor must be greater than zero"
  | CaptchaDurationZero => "difficulty factor must be greater than zero"
  | SetDifficultyFactor => "Set difficulty factor"
  | SetVisitorThreshold => "Set visitor threshold"
  | DuplicateVisitorCount => "Duplicate visitor count"
  | DecreaseingDifficultyFactor => "Difficulty factor should increase with level"
  | MailboxError => "Actor mailbox error"
  | InsuffiencientDifficulty => "Insuffiencient Difficulty"
  | StringNotFound => "String now found"
  | MCaptchaKeyValidationFail => "PoW computed over configuration not intended for target sitekey"
  | InvalidPoW => "Invalid PoW"
  | PleaseSetValue s => "Please set value: " +:+ s
  | RedisError s => s
  | RecvError => "channel closed"
  | MCaptchaRedisModuleError =>
      "Something weird happening with mCaptcha redis module. Please file bug report"
  | MCaptchaRedisModuleIsNotLoaded =>
      "You are trying to connect to a Redis instance that doesn't have mCaptcha redis module loaded." +:+ newline +:+
      "        Please see https://github.com/mCaptcha/cache for details on how to install mCaptcha redis module moudle"
  | MCaptchaRediSModuleCommandNotFound s =>
      "The Redis instance that libmcaptcha is trying to connect to has mCaptcha Redis module loaded," +:+ newline +:+
      "        but it's probably outdated and as a result, we are not able to find all required commands to operate mCaptcha" +:+ newline +:+
      "        Command " +:+ (s +:+ " is not found")
  | QueueFull => "IP Queue is full"
  end.
