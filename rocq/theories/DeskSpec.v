(** Vocabulary of the statements about the host library and a device in a user's hands. *)
From Coq Require Import NArith ZArith List.
From Verif Require Import Base Oracles Device DeviceSpec Screens Zui UiDevice Client.
Import ListNotations.
Open Scope N_scope.

(** The calls of the library, over any transport. *)
Definition call_of (A : Type) := forall W : Type, transport W -> W -> A * W.
Inductive library_call (H : host) : forall A, call_of A -> Prop :=
| LcSignOperation path c m : bytes_ok m -> library_call H sign_res (fun W X => sign_operation H X path c m)
| LcSignMichelson path c m : bytes_ok m -> library_call H sign_res (fun W X => sign_michelson H X path c m)
| LcSignBaker path c m kind : bytes_ok m -> library_call H (jres sign_res) (fun W X => sign_baker H X path c m kind)
| LcLegacySignWithHash path c m kind : bytes_ok m -> library_call H sign_res (fun W X => legacy_sign_with_hash H X path c m kind)
| LcLegacySign path c m kind : bytes_ok m -> library_call H sign_res (fun W X => legacy_sign H X path c m kind)
| LcGetAddress path c : library_call H (jres (bytes * bytes)) (fun W X => get_address_and_pubkey H X path c)
| LcShowAddress path c : library_call H (jres (bytes * bytes)) (fun W X => show_address_and_pubkey H X path c)
| LcLegacyGetPubkey path c : library_call H (jres (bytes * bytes)) (fun W X => legacy_get_pubkey H X path c)
| LcLegacyPromptPubkey path c : library_call H (jres (bytes * bytes)) (fun W X => legacy_prompt_pubkey H X path c)
| LcAuthorize path c : library_call H (jres bytes) (fun W X => authorize_baking H X path c)
| LcDeauthorize : library_call H (jres unit) (fun W X => deauthorize_baking X)
| LcQuery confirm : library_call H (jres (N * bytes)) (fun W X => query_auth_key X confirm)
| LcReset level : library_call H (jres unit) (fun W X => legacy_reset X level)
| LcGetHwm : library_call H (jres N) (fun W X => legacy_get_hwm X)
| LcGetAll : library_call H (jres (N * N * N)) (fun W X => legacy_get_all X)
| LcSetup path c main test chain : library_call H (jres (bytes * bytes)) (fun W X => legacy_setup H X path c main test chain)
| LcHmac path c m : bytes_ok m -> library_call H (jres bytes) (fun W X => legacy_hmac H X path c m)
| LcVersion : library_call H (jres (bool * (N * N * N) * bool * Z)) (fun W X => get_version X)
| LcLegacyVersion : library_call H (jres (bool * (N * N * N))) (fun W X => legacy_get_version X)
| LcGit : library_call H (jres bytes) (fun W X => legacy_get_git X).

(** A decision that stands for what a hand does about a command: it approves only if
    the hand pressed both buttons at once. *)
Definition stands_for (h : bytes * list button) (e : bytes * event) : Prop :=
  fst e = fst h /\ event_ok (snd e) /\ (snd e = EApprove -> In Both (snd h)).

(** What reaches the device while a hand is ready for a command: the command, then the
    buttons of the hand, up to some point. *)
Definition handled (h : bytes * list button) (l : list input) : Prop :=
  exists command n, l = IApdu (received command (fst h)) (len command) :: map IPress (firstn n (snd h)).
