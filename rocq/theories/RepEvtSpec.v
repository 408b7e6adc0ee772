(** What a report is to tell (C198). *)
From Verif Require Import Base Json RepEvtModel.

(** The name of the event, the ECU, the correlation id, the outcome and the campaign, as far as the event has them. *)
Record tells := { s_name : string; s_ecu : option string; s_corr : option string; s_success : option bool; s_campaign : option string }.
Definition if_any (corr : string) : option string := if String.eqb corr "" then None else Some corr.
Definition meaning (r : report) : tells :=
  match r with
  | CampaignAccepted c => {| s_name := "campaign_accepted"; s_ecu := None; s_corr := None; s_success := None; s_campaign := Some c |}
  | CampaignDeclined c => {| s_name := "campaign_declined"; s_ecu := None; s_corr := None; s_success := None; s_campaign := Some c |}
  | CampaignPostponed c => {| s_name := "campaign_postponed"; s_ecu := None; s_corr := None; s_success := None; s_campaign := Some c |}
  | DevicePaused corr => {| s_name := "DevicePaused"; s_ecu := None; s_corr := if_any corr; s_success := None; s_campaign := None |}
  | DeviceResumed corr => {| s_name := "DeviceResumed"; s_ecu := None; s_corr := if_any corr; s_success := None; s_campaign := None |}
  | EcuDownloadStarted e corr => {| s_name := "EcuDownloadStarted"; s_ecu := Some e; s_corr := if_any corr; s_success := None; s_campaign := None |}
  | EcuDownloadCompleted e corr ok => {| s_name := "EcuDownloadCompleted"; s_ecu := Some e; s_corr := if_any corr; s_success := Some ok; s_campaign := None |}
  | EcuInstallationStarted e corr => {| s_name := "EcuInstallationStarted"; s_ecu := Some e; s_corr := if_any corr; s_success := None; s_campaign := None |}
  | EcuInstallationApplied e corr => {| s_name := "EcuInstallationApplied"; s_ecu := Some e; s_corr := if_any corr; s_success := None; s_campaign := None |}
  | EcuInstallationCompleted e corr ok => {| s_name := "EcuInstallationCompleted"; s_ecu := Some e; s_corr := if_any corr; s_success := Some ok; s_campaign := None |}
  end.

(** The value found along a path of member names; nothing if a member is missing on the way. *)
Fixpoint found (path : list string) (j : json) : option json :=
  match path with
  | [] => Some j
  | k :: p => match j with JObj m => match aget k m with Some v => found p v | None => None end | _ => None end
  end.
Definition text (s : option string) : option json := match s with Some x => Some (JStr x) | None => None end.
Definition truth (b : option bool) : option json := match b with Some x => Some (JBool x) | None => None end.
