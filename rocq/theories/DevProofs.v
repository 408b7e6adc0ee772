From Verif Require Import Base Json CodecModel CodecSpec CodecProofs DevModel DevSpec.

(** ** Codes *)
Lemma rc_num_need : rc_string (num kNeedCompletion) = Ok "NEED_COMPLETION". Proof. reflexivity. Qed.
Lemma need_completion_spec r : (exists s, rc_string (ir_code r) = Ok s) -> exists b, need_completion r = Ok b /\ (b = true <-> waits r).
Proof.
  intros [s Hs]. unfold need_completion, rc_eq, waits. cbn [rc_num num].
  destruct (Z.eqb_spec (rc_num (ir_code r)) kNeedCompletion) as [E|E]; cbn [negb].
  2:{ exists false. split; [reflexivity|]. split; [discriminate|intros [A _]; congruence]. }
  rewrite Hs, rc_num_need. cbn [bind]. exists (String.eqb s "NEED_COMPLETION"). split; [reflexivity|].
  rewrite String.eqb_eq. unfold rc_string in Hs. destruct (String.eqb_spec (rc_text (ir_code r)) "") as [T|T]; cbn [negb] in Hs.
  - rewrite E in Hs. vm_compute in Hs. injection Hs as <-. tauto.
  - injection Hs as <-. split; [intros ->; tauto|intros [_ [A|A]]; congruence].
Qed.

Lemma append_nil_iff a b : append a b = "" -> a = "" /\ b = "".
Proof. destruct a; cbn; [auto|discriminate]. Qed.
Lemma item_nonempty hw s : append hw (String ":" s) <> "".
Proof. intros H. apply append_nil_iff in H. destruct H; discriminate. Qed.
Lemma append_assoc a b c : append (append a b) c = append a (append b c).
Proof. induction a as [|x a IH]; cbn; [reflexivity|rewrite IH; reflexivity]. Qed.
Lemma append_nil_r a : append a "" = a. Proof. induction a as [|x a IH]; cbn; [reflexivity|rewrite IH; reflexivity]. Qed.

(** Accumulated error text and the list of failures. *)
Definition joined_text (l : list string) : string := String.concat "|" l.
Lemma concat_app sep a x : a <> [] -> String.concat sep (a ++ [x]) = append (String.concat sep a) (append sep x).
Proof.
  induction a as [|y a IH]; [congruence|intros _]. destruct a as [|z a].
  - reflexivity.
  - change ((y :: z :: a) ++ [x]) with (y :: (z :: a) ++ [x]).
    assert (E : String.concat sep (y :: (z :: a) ++ [x]) = append y (append sep (String.concat sep ((z :: a) ++ [x])))) by reflexivity.
    rewrite E, IH by discriminate. change (String.concat sep (y :: z :: a)) with (append y (append sep (String.concat sep (z :: a)))).
    now rewrite !append_assoc.
Qed.
Lemma concat_empty sep l : Forall (fun x => x <> "") l -> (String.concat sep l = "" <-> l = []).
Proof.
  intros F. split; [|intros ->; reflexivity]. destruct F as [|x l Hx F]; [reflexivity|].
  destruct l as [|y l]; cbn; [congruence|]. intros H. apply append_nil_iff in H. tauto.
Qed.
Lemma failures_nonempty c l : Forall (fun x => x <> "") (failures c l).
Proof. apply Forall_forall. intros x Hx. unfold failures in Hx. apply in_map_iff in Hx. destruct Hx as (e & <- & _). apply item_nonempty. Qed.
Lemma join_err_snoc l x : Forall (fun x => x <> "") l -> join_err (String.concat "|" l) x = String.concat "|" (l ++ [x]).
Proof.
  intros F. unfold join_err. destruct (String.eqb_spec (String.concat "|" l) "") as [E|E].
  - apply (concat_empty "|" l F) in E. subst. reflexivity.
  - assert (N : l <> []) by (intros ->; cbn in E; congruence). rewrite (concat_app "|" l x N). reflexivity.
Qed.

(** ** The loop *)
Lemma result_loop_app c l : forall l2 cur raw errs, Forall (fun x => x <> "") errs -> codes_ok l -> Forall (fun e => known c (fst e) /\ ~ waits (snd e)) l ->
  result_loop c (l ++ l2) cur raw (String.concat "|" errs) = result_loop c l2 cur raw (String.concat "|" (errs ++ failures c l)).
Proof.
  induction l as [|[s r] l IH]; intros l2 cur raw errs F C K.
  - unfold failures. cbn [map filter app]. now rewrite app_nil_r.
  - inversion C as [|? ? [t Ht] C']; subst. inversion K as [|? ? [[hw Hw] NW] K']; subst. cbn [snd fst] in *.
    cbn [app result_loop]. rewrite Hw. destruct (need_completion_spec r (ex_intro _ t Ht)) as (b & Eb & Wb). rewrite Eb. cbn [bind].
    destruct b; [exfalso; apply NW, Wb; reflexivity|].
    destruct (ir_success r) eqn:S.
    + rewrite (IH l2 cur raw errs F C' K'). unfold failures. cbn [filter snd]. rewrite S. reflexivity.
    + rewrite Ht. cbn [bind]. rewrite join_err_snoc by assumption. rewrite IH; auto.
      * f_equal. f_equal. rewrite <- app_assoc. f_equal. unfold failures. cbn [filter snd]. rewrite S. cbn [negb map fst snd app].
        unfold hw_text, code_text. rewrite Hw, Ht. reflexivity.
      * apply Forall_app. split; [assumption|constructor; [apply item_nonempty|constructor]].
Qed.
(** Either the whole list is of known, not waiting ECUs or there is a first other one. *)
Lemma first_blocked c l : codes_ok l ->
  Forall (fun e => known c (fst e) /\ ~ waits (snd e)) l \/
  exists pre e post, l = pre ++ e :: post /\ Forall (fun e => known c (fst e) /\ ~ waits (snd e)) pre /\ (~ known c (fst e) \/ known c (fst e) /\ waits (snd e)).
Proof.
  induction l as [|[s r] l IH]; intros C; [left; constructor|].
  inversion C as [|? ? Hc C']; subst. cbn [snd] in Hc.
  destruct (ecu_hw c s) as [hw|] eqn:H.
  2:{ right. exists [], (s, r), l. split; [reflexivity|]. split; [constructor|]. left. intros [h E]. cbn in E. congruence. }
  assert (K : known c s) by (exists hw; exact H).
  destruct (need_completion_spec r Hc) as ([|] & _ & W).
  - right. exists [], (s, r), l. split; [reflexivity|]. split; [constructor|]. right. split; [exact K|apply W; reflexivity].
  - assert (NW : ~ waits r) by (intros A; apply W in A; discriminate).
    destruct (IH C') as [A|(pre & e & post & -> & A & B)]; [left; constructor; auto|].
    right. exists ((s, r) :: pre), e, post. split; [reflexivity|]. split; [constructor; auto|exact B].
Qed.
Definition blocked_code (c : client) (e : string * ires) : Z := match ecu_hw c (fst e) with None => kInternalError | Some _ => kNeedCompletion end.
Lemma result_loop_blocked c e post cur raw err : codes_ok [e] -> ~ known c (fst e) \/ known c (fst e) /\ waits (snd e) ->
  exists m raw', result_loop c (e :: post) cur raw err = Ok (mk_ires (num (blocked_code c e)) m, raw', err).
Proof.
  intros C B. destruct e as [s r]. cbn [fst snd] in B. cbn [result_loop]. unfold blocked_code. cbn [fst].
  destruct (ecu_hw c s) as [hw|] eqn:H.
  - destruct B as [B|[_ W]]; [exfalso; apply B; exists hw; exact H|]. inversion C as [|? ? Hc _]; subst.
    destruct (need_completion_spec r Hc) as (b & -> & Wb). apply Wb in W. subst b. cbn [bind]. eauto.
  - eauto.
Qed.

Definition res_code (x : ires * string) : rcode := ir_code (fst x).
Lemma device_result_all c d l : load_eres d = Ok (Some l) -> codes_ok l -> Forall (fun e => known c (fst e) /\ ~ waits (snd e)) l ->
  exists r raw, device_result c d = Ok (r, raw) /\
    ir_code r = match failures c l with [] => num kOk | fs => {| rc_num := kInstallFailed; rc_text := String.concat "|" fs |} end /\
    ir_success r = match failures c l with [] => true | _ => false end.
Proof.
  intros L C K. unfold device_result. rewrite L. cbn [bind].
  pose proof (result_loop_app c l [] (mk_ires (num kOk) "Device has been successfully installed") "Installation succesful" [] (Forall_nil _) C K) as E.
  rewrite app_nil_r in E. change (String.concat "|" []) with "" in E. rewrite E. cbn [result_loop bind app].
  destruct (failures c l) as [|x fs] eqn:F.
  - change (String.eqb (String.concat "|" []) "") with true. do 2 eexists. split; [reflexivity|split; reflexivity].
  - destruct (String.eqb_spec (String.concat "|" (x :: fs)) "") as [Z|Z].
    + apply concat_empty in Z; [discriminate|]. rewrite <- F. apply failures_nonempty.
    + do 2 eexists. split; [reflexivity|split; reflexivity].
Qed.
Lemma device_result_blocked c d pre e post : load_eres d = Ok (Some (pre ++ e :: post)) -> codes_ok (pre ++ e :: post) ->
  Forall (fun e => known c (fst e) /\ ~ waits (snd e)) pre -> ~ known c (fst e) \/ known c (fst e) /\ waits (snd e) ->
  exists r raw, device_result c d = Ok (r, raw) /\ ir_success r = false /\
    ir_code r = match failures c pre with [] => num (blocked_code c e) | fs => {| rc_num := kInstallFailed; rc_text := String.concat "|" fs |} end.
Proof.
  intros L C K B. unfold device_result. rewrite L. cbn [bind].
  unfold codes_ok in C. apply Forall_app in C. destruct C as [C1 C2]. inversion C2 as [|? ? C3 C4]; subst.
  pose proof (result_loop_app c pre (e :: post) (mk_ires (num kOk) "Device has been successfully installed") "Installation succesful" [] (Forall_nil _) C1 K) as E.
  change (String.concat "|" []) with "" in E. rewrite E. cbn [app].
  destruct (result_loop_blocked c e post (mk_ires (num kOk) "Device has been successfully installed") "Installation succesful"
              (String.concat "|" (failures c pre)) (Forall_cons _ C3 (Forall_nil _)) B) as (m & raw' & ->). cbn [bind].
  assert (NS : ir_success (mk_ires (num (blocked_code c e)) m) = false) by (unfold blocked_code; destruct (ecu_hw c (fst e)); reflexivity).
  destruct (failures c pre) as [|x fs] eqn:F.
  - change (String.eqb (String.concat "|" []) "") with true. do 2 eexists. split; [reflexivity|split; [exact NS|reflexivity]].
  - destruct (String.eqb_spec (String.concat "|" (x :: fs)) "") as [Z|Z].
    + apply concat_empty in Z; [discriminate|]. rewrite <- F. apply failures_nonempty.
    + do 2 eexists. split; [reflexivity|split; reflexivity].
Qed.
Lemma failures_nil c l : failures c l = [] <-> Forall (fun e => ir_success (snd e) = true) l.
Proof.
  unfold failures. induction l as [|[s r] l IH]; cbn [filter map snd]; [split; [constructor|reflexivity]|].
  destruct (ir_success r) eqn:S; cbn [negb].
  - rewrite IH. split; intros H; [constructor; auto|inversion H; auto].
  - cbn [map]. split; [discriminate|intros H; inversion H; cbn in *; congruence].
Qed.
