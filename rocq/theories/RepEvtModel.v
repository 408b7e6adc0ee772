(** Events reported to the server: /repo/src/libaktualizr/primary/reportqueue.cc:69-143, reportqueue.h:18-110. *)
From Verif Require Import Base Json TufModel GenModel.

(** The classes of reportqueue.h:36-110 with the arguments of their constructors (ECU, correlation id, outcome; campaign). *)
Inductive report :=
| CampaignAccepted (campaign : string)
| CampaignDeclined (campaign : string)
| CampaignPostponed (campaign : string)
| DevicePaused (corr : string)
| DeviceResumed (corr : string)
| EcuDownloadStarted (ecu corr : string)
| EcuDownloadCompleted (ecu corr : string) (success : bool)
| EcuInstallationStarted (ecu corr : string)
| EcuInstallationApplied (ecu corr : string)
| EcuInstallationCompleted (ecu corr : string) (success : bool).

(** reportqueue.cc:69; the members of custom, none: the null value. *)
Definition set_ecu (ecu : string) (m : list (string * json)) : list (string * json) := oput "ecu" (JStr ecu) m.
(** reportqueue.cc:70-74 *)
Definition set_correlation_id (corr : string) (m : list (string * json)) : list (string * json) :=
  if String.eqb corr "" then m else oput "correlationId" (JStr corr) m.

(** reportqueue.cc:88-143: the type given to ReportEvent and the custom part. *)
Definition report_parts (r : report) : string * list (string * json) :=
  match r with
  | CampaignAccepted c => ("campaign_accepted", oput "campaignId" (JStr c) [])
  | CampaignDeclined c => ("campaign_declined", oput "campaignId" (JStr c) [])
  | CampaignPostponed c => ("campaign_postponed", oput "campaignId" (JStr c) [])
  | DevicePaused corr => ("DevicePaused", set_correlation_id corr [])
  | DeviceResumed corr => ("DeviceResumed", set_correlation_id corr [])
  | EcuDownloadStarted e corr => ("EcuDownloadStarted", set_correlation_id corr (set_ecu e []))
  | EcuDownloadCompleted e corr ok => ("EcuDownloadCompleted", oput "success" (JBool ok) (set_correlation_id corr (set_ecu e [])))
  | EcuInstallationStarted e corr => ("EcuInstallationStarted", set_correlation_id corr (set_ecu e []))
  | EcuInstallationApplied e corr => ("EcuInstallationApplied", set_correlation_id corr (set_ecu e []))
  | EcuInstallationCompleted e corr ok => ("EcuInstallationCompleted", oput "success" (JBool ok) (set_correlation_id corr (set_ecu e [])))
  end.

(** reportqueue.h:28-29 (version 0 in all constructors), reportqueue.cc:76-86 toJson; [id] the random UUID, [time] the time of the
    clock. *)
Definition report_json (id time : string) (r : report) : json :=
  let (type, custom) := report_parts r in
  let out := oput "id" (JStr id) [] in
  let out := oput "deviceTime" (JStr time) out in
  let out := oput "eventType" (JObj (oput "version" (JInt 0) (oput "id" (JStr type) []))) out in
  JObj (oput "event" (match custom with [] => JNull | _ => JObj custom end) out).
