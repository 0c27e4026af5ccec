(** * [Display] of the errors of aucpace (aucpace/src/errors.rs:29-52).

    [inner] is [Display] of [password_hash::Error], which is not in /repo. *)
From Verif Require Import Base.Bytes.
From Verif Require Import Aucpace.PwHash Aucpace.AucpaceModel.

Definition display_error (inner : pherror -> bytes) (e : Error) : bytes :=
  match e with
  | IllegalPointError => str "illegal point encountered"
  | PasswordHashing error => str "error while hashing password: " ++ inner error
  | HashEmpty => str "password hash empty"
  | HashSizeInvalid => str "password hash invalid, should be 32 or 64 bytes"
  | MutualAuthFail => str "explicit mutual authentication failed, authenticators didn't match"
  | UsernameOrPasswordTooLong => str "username or password too long"
  | InsecureSsid => str "provided SSID is insecure - SSIDs must be at least 16 bytes long"
  | UserNotRegistered => str "user must be registered before a long-term keypair can be stored"
  end.
