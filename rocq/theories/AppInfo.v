(** The host library's question for the running app: js/src/index.ts l.162-209
    ([getAppInfo]), which the operating system of the device answers. *)
From Coq Require Import List NArith ZArith Bool.
From Verif Require Import Base Codecs Client.
Import ListNotations.
Open Scope N_scope.

(** [Buffer.prototype.toString('ascii')] drops the highest bit of each byte. *)
Definition to_ascii (l : bytes) : bytes := map (fun b => b mod 128) l.

(** l.192-207 without the error message; None is [undefined]. *)
Record app_info := mkInfo {
  ai_name : bytes; ai_version : bytes; ai_flag_len : option N; ai_flags : option N;
  ai_recovery : bool; ai_signed_mcu : bool; ai_onboarded : bool; ai_pin : bool
}.
(** l.200-206: [&] takes [undefined] for 0. *)
Definition flag (v : option N) (mask : N) : bool := negb (N.land (match v with Some x => x | None => 0 end) mask =? 0).
Definition info_of (name version : bytes) (flag_len flags : option N) : app_info :=
  mkInfo name version flag_len flags (flag flags 1) (flag flags 2) (flag flags 4) (flag flags 128).

(** l.169-172: 'err'. *)
Definition ERR : bytes := [101; 114; 114].
(** l.174-190. The message and code for another format (l.176-177) are stored in a variable
    that is not used. An index that is [undefined] or NaN makes [slice] stop at 0 and reads
    [undefined]. *)
Definition read_app_info (r : bytes) : app_info :=
  match nth_error r 0 with
  | Some 1 =>
    match nth_error r 1 with
    | None => info_of (to_ascii (js_slice 2 0 r)) [] None None
    | Some n =>
      let name := to_ascii (js_slice 2 (2 + Z.of_N n) r) in
      let idx := 2 + n in
      match nth_error r (N.to_nat idx) with
      | None => info_of name (to_ascii (js_slice (Z.of_N idx + 1) 0 r)) None None
      | Some v =>
        let version := to_ascii (js_slice (Z.of_N idx + 1) (Z.of_N idx + 1 + Z.of_N v) r) in
        let idx := idx + 1 + v in
        info_of name version (nth_error r (N.to_nat idx)) (nth_error r (N.to_nat (idx + 1)))
      end
    end
  | _ => info_of ERR ERR (Some 0) (Some 0)
  end.

(** l.163-166, l.208: class 0xb0, without data ([Transport.send] puts the length 0). *)
Definition get_app_info {W} (X : transport W) (w : W) : jres app_info * W :=
  match X w [0xB0; 0x01; 0; 0; 0] with
  | (None, w') => (JCode OTHER_ERROR, w')
  | (Some r, w') =>
    if len r <? 2 then (JCode OTHER_ERROR, w')
    else if status_of r =? NO_ERRORS then (JData (status_of r) (read_app_info r), w')
    else (JCode (status_of r), w')
  end.
