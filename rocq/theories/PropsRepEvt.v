(** C198: a report tells what happened. *)
From Verif Require Import Base Json TufModel GenModel GenProofs RepEvtModel RepEvtSpec.

Ltac each r corr := destruct r as [c|c|c|corr|corr|e corr|e corr ok|e corr|e corr|e corr ok].
Ltac parts := unfold report_json, report_parts, set_correlation_id, set_ecu, meaning, if_any.

(** Every report has its id, its time, its name in version 0, and exactly the particulars of the event. *)
Theorem C198_content :
  forall id time r, let j := report_json id time r in let w := meaning r in
    found ["id"] j = Some (JStr id) /\ found ["deviceTime"] j = Some (JStr time) /\
    found ["eventType"; "id"] j = Some (JStr (s_name w)) /\ found ["eventType"; "version"] j = Some (JInt 0) /\
    found ["event"; "ecu"] j = text (s_ecu w) /\ found ["event"; "correlationId"] j = text (s_corr w) /\
    found ["event"; "success"] j = truth (s_success w) /\ found ["event"; "campaignId"] j = text (s_campaign w) /\
    (forall k, k <> "ecu" -> k <> "correlationId" -> k <> "success" -> k <> "campaignId" -> found ["event"; k] j = None) /\
    (forall k, k <> "id" -> k <> "deviceTime" -> k <> "eventType" -> k <> "event" -> found [k] j = None).
Proof.
  intros id time r j w. subst j w.
  assert (F : forall k m, found [k] (match m with [] => JNull | _ => JObj m end) = aget k m).
  { intros k [|x m]; [reflexivity|]. cbn [found]. now destruct (aget k (x :: m)). }
  each r corr; parts; try (destruct (String.eqb_spec corr "") as [-> | NE]);
    repeat match goal with |- _ /\ _ => split end; try reflexivity; intros k H1 H2 H3 H4.
  all: try (cbn [found]; now rewrite !aget_oput_other by congruence).
  all: change (found ["event"; k]) with (fun j => match j with JObj m => match aget "event" m with Some v => found [k] v | None => None end | _ => None end);
    cbv beta iota; rewrite aget_oput; cbv iota; rewrite F; now rewrite ?aget_oput_other by congruence.
Qed.

(** Nothing is lost: different reports are different for the server. *)
Theorem C198_different :
  forall id time r id' time' r', report_json id time r = report_json id' time' r' -> id = id' /\ time = time' /\ r = r'.
Proof.
  intros id time r id' time' r' E.
  destruct (C198_content id time r) as (A1 & A2 & A3 & _ & A5 & A6 & A7 & A8 & _). destruct (C198_content id' time' r') as (B1 & B2 & B3 & _ & B5 & B6 & B7 & B8 & _).
  rewrite E in A1, A2, A3, A5, A6, A7, A8. rewrite A1 in B1. rewrite A2 in B2. rewrite A3 in B3. rewrite A5 in B5. rewrite A6 in B6. rewrite A7 in B7. rewrite A8 in B8.
  clear A1 A2 A3 A5 A6 A7 A8 E. split; [congruence|]. split; [congruence|]. clear B1 B2.
  assert (I0 : forall a b, text (if_any a) = text (if_any b) -> a = b).
  { intros a b. unfold if_any. destruct (String.eqb_spec a "") as [-> | N1]; destruct (String.eqb_spec b "") as [-> | N2]; cbn; intros H; try reflexivity; try discriminate. congruence. }
  destruct r as [c|c|c|c1|c1|e c1|e c1 ok|e c1|e c1|e c1 ok]; destruct r' as [d|d|d|c2|c2|f c2|f c2 yes|f c2|f c2|f c2 yes]; cbn [meaning s_name s_ecu s_corr s_success s_campaign] in *; try discriminate B3; try apply I0 in B6; cbn [text truth] in B5, B7, B8; congruence.
Qed.

Example finished : report_json "0001" "2020-01-01T00:00:00Z" (EcuInstallationCompleted "ecu1" "urn:1" false) =
  JObj [("deviceTime", JStr "2020-01-01T00:00:00Z"); ("event", JObj [("correlationId", JStr "urn:1"); ("ecu", JStr "ecu1"); ("success", JBool false)]);
        ("eventType", JObj [("id", JStr "EcuInstallationCompleted"); ("version", JInt 0)]); ("id", JStr "0001")].
Proof. reflexivity. Qed.
Example paused : report_json "0002" "2020-01-01T00:00:00Z" (DevicePaused "") =
  JObj [("deviceTime", JStr "2020-01-01T00:00:00Z"); ("event", JNull); ("eventType", JObj [("id", JStr "DevicePaused"); ("version", JInt 0)]); ("id", JStr "0002")].
Proof. reflexivity. Qed.

Print Assumptions C198_content.
Print Assumptions C198_different.
