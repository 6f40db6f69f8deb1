(** Vocabulary of the statement about what an interrupted command leaves behind. *)
From Coq Require Import List NArith Bool.
From Verif Require Import Base Flash Codecs CodecsSpec Upload UploadSpec Baking BakingSpec Operations Oracles
  Address AddressSpec Device DeviceSpec ServiceSpec.
Import ListNotations.
Open Scope N_scope.

(** A slot that can no longer be opened: the app stops at every access, now and after
    any restart. *)
Definition lost (d : dev) (s : slot) : Prop :=
  wear_read (get_slot s d) = None /\ wear_read (get_slot s (restart d)) = None.

(** The slot [s] is left as it was. *)
Definition kept (d d' : dev) (s : slot) : Prop :=
  (forall o, holds_slot d s o -> holds_slot d' s o) /\ (lost d s -> lost d' s).

(** The watermark of a position. *)
Definition mark_at (q : cpos) : watermark :=
  match q with
  | PEmmy level endorsement => WEmmy level endorsement
  | PTB level round KBlock => WTenderbake level false round false
  | PTB level round KPre => WTenderbake level false round true
  | PTB level round KEnd => WTenderbake level true round true
  end.

(** What the event [e] is to store, in this order, if it is carried out.
    - RESET: both watermarks, and the chain id of the mainnet (NetXdQprcVkpaWU,
      0x7A06A770) if there is none yet;
    - the approval of an authorisation: the key;
    - the approval of a deauthorisation: no key;
    - the approval of a set-up: the key, both watermarks and the chain id;
    - a consensus message: the main watermark, that of the message's position. *)
Inductive plan (C : config) (d : dev) : event -> list (slot * bytes) -> Prop :=
| PlanReset buf rx p chain :
    cf_baking C = true -> command d buf rx 0x06 -> 4 <= nth 4 buf 0 ->
    mark_bytes p (WEmmy (unbe (firstn 4 (pay buf))) false) ->
    (chain = [(SChain, be 4 0x7A06A770 ++ zeros 48)] /\ holds_slot d SChain None) \/
    (chain = [] /\ ~ holds_slot d SChain None) ->
    plan C d (EApdu buf rx) ([(SMain, p); (STest, p)] ++ chain)
| PlanAuthorise k a p : d_ui d = Some (VAuthorize k a) -> key_layout p k ->
    plan C d EApprove [(SKey, p)]
| PlanDeauthorise a : d_ui d = Some (VDeauthorize a) ->
    plan C d EApprove [(SKey, zeros 52)]
| PlanSetup k main test chain a pk pm pt : d_ui d = Some (VSetup k main test chain a) ->
    key_layout pk k -> mark_bytes pm (WEmmy main false) -> mark_bytes pt (WEmmy test false) ->
    plan C d EApprove
      [(SKey, pk); (SMain, pm); (STest, pt); (SChain, be 4 (u32_of_chain chain) ++ zeros 48)]
| PlanSign e q p : offered C d e q -> mark_bytes p (mark_at q) ->
    plan C d e [(SMain, p)].
