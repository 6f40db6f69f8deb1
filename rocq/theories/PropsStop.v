(** Property theorem C64: what stops the app. *)
From Coq Require Import NArith Bool Arith List.
From Verif Require Import Base Flash Codecs CodecsSpec Upload UploadSpec Oracles AddressExamples Device DeviceSpec DeviceHist DeviceDemo
  ServiceSpec StopSpec StopExamples.
Import ListNotations.
Open Scope list_scope.
Open Scope N_scope.

(** C64. With a flash that does not tear pages, the app stops exactly when the power is
    cut, before or during a write, or when the upload of a block with a short fitness is
    completed for the authorised key. *)
Theorem C64_stops_exactly : forall C O f es e, oracles_ok O -> (8 <= length (cf_commit C))%nat -> roomy C 134 ->
  Forall intact_fault f -> Forall event_ok es -> event_ok e -> len es < 2 ^ 64 ->
  let d := snd (run C O (dev_fresh f []) es) in
  (fst (step C O d e) = ADied <->
   e = EPower \/ power_cut d (snd (step C O d e)) \/ fatal C O d (uploading C O (dev_fresh f []) None es) e).
Proof. exact stops_exactly. Qed.
Print Assumptions C64_stops_exactly.
Example C64_case : (8 <= length (cf_commit demo_config))%nat /\ roomy demo_config 134 /\
  Forall event_ok stop_events /\ event_ok stop_event /\ len stop_events < 2 ^ 64 /\
  fst (step demo_config demo_oracles (snd (run demo_config demo_oracles (dev_fresh [] []) stop_events)) stop_event) = ADied /\
  Forall intact_fault [WCut TOld] /\
  fst (run demo_config demo_oracles (dev_fresh [WCut TOld] []) authorise) = [APending; ADied].
Proof. exact stop_case. Qed.

(** C64. With any flash there is one more cause: a slot that cannot be read. *)
Theorem C64_stop_causes : forall C O f es e, oracles_ok O -> (8 <= length (cf_commit C))%nat -> roomy C 134 ->
  Forall event_ok es -> event_ok e ->
  let d := snd (run C O (dev_fresh f []) es) in
  fst (step C O d e) = ADied ->
  e = EPower \/ power_cut d (snd (step C O d e)) \/ (exists s, wear_read (get_slot s d) = None) \/
  fatal C O d (uploading C O (dev_fresh f []) None es) e.
Proof. exact stop_causes. Qed.
Print Assumptions C64_stop_causes.
Example C64_torn_case : Forall event_ok torn_events /\
  (let d := snd (run demo_config demo_oracles (dev_fresh torn_faults []) torn_events) in
   fst (step demo_config demo_oracles d (send 0x08 0 0 [])) = ADied /\ wear_read (get_slot SMain d) = None).
Proof. exact torn_case. Qed.

(** C64. Such a block stops the app with any flash; nothing is signed or stored. *)
Theorem C64_short_fitness_stops : forall C O f es e, Forall event_ok es -> event_ok e ->
  let d := snd (run C O (dev_fresh f []) es) in
  fatal C O d (uploading C O (dev_fresh f []) None es) e ->
  fst (step C O d e) = ADied /\ d_log (snd (step C O d e)) = d_log d /\
  forall s, w_pages (get_slot s (snd (step C O d e))) = w_pages (get_slot s d).
Proof. exact fatal_stops. Qed.
Print Assumptions C64_short_fitness_stops.
Example C64_fatal_case :
  fatal demo_config demo_oracles (snd (run demo_config demo_oracles (dev_fresh [] []) stop_events))
    (uploading demo_config demo_oracles (dev_fresh [] []) None stop_events) stop_event.
Proof. exact stop_fatal. Qed.
