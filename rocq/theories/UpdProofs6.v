(** The vehicle's result is "ok" only if the results of its ECUs are. *)
From Verif Require Import Base Json TufModel MetaStore RepoModel CodecModel InstModel InstSpec DevModel DevSpec DevProofs ClientModel UpdModel UpdSpec UpdProofs UpdProofs2 UpdProofs3.
From Coq Require Import Lia.

Definition good_code (r : ires) : Prop := rc_num (ir_code r) = 0 \/ ir_success r = true.
Lemma join_err_ne acc item : item <> "" -> join_err acc item <> "".
Proof. unfold join_err. intros N. destruct acc; cbn; [exact N|discriminate]. Qed.
Lemma append_ne a b : b <> "" -> append a b <> "".
Proof. destruct a; cbn; [auto|discriminate]. Qed.
Lemma loop_err c l : forall cur raw err cur' raw' err', result_loop c l cur raw err = Ok (cur', raw', err') -> err <> "" -> err' <> "".
Proof.
  induction l as [|(s, r) l IH]; intros cur raw err cur' raw' err' H N; cbn [result_loop] in H; [injection H as <- <- <-; exact N|].
  destruct (ecu_hw c s); [|injection H as <- <- <-; exact N]. destruct (need_completion r) as [[]|]; cbn [bind] in H; [injection H as <- <- <-; exact N| |discriminate].
  destruct (ir_success r); [eapply IH; eauto|]. destruct (rc_string (ir_code r)); cbn [bind] in H; [|discriminate]. eapply IH; [exact H|].
  apply join_err_ne, append_ne. discriminate.
Qed.
Lemma loop_good c l : forall cur raw cur' raw', result_loop c l cur raw "" = Ok (cur', raw', "") -> good_code cur' -> Forall (fun e => known c (fst e) /\ succeeded (snd e)) l.
Proof.
  induction l as [|(s, r) l IH]; intros cur raw cur' raw' H G; cbn [result_loop] in H; [constructor|].
  destruct (ecu_hw c s) as [hw|] eqn:K; [|injection H as <- <-; destruct G as [G|G]; discriminate G].
  destruct (need_completion r) as [b|] eqn:N; cbn [bind] in H; [|discriminate]. destruct b; [injection H as <- <-; destruct G as [G|G]; discriminate G|].
  destruct (ir_success r) eqn:S.
  - constructor; [|eapply IH; eauto]. split; [exists hw; exact K|]. split; [exact S|now apply need_false].
  - exfalso. destruct (rc_string (ir_code r)); cbn [bind] in H; [|discriminate]. apply loop_err in H; [now apply H|]. apply join_err_ne, append_ne. discriminate.
Qed.
Lemma device_good c d r raw : device_result c d = Ok (r, raw) -> good_code r ->
  exists l, load_eres d = Ok (Some l) /\ l <> [] /\ Forall (fun e => known c (fst e) /\ succeeded (snd e)) l.
Proof.
  unfold device_result. intros H G. destruct (load_eres d) as [[l|]|] eqn:L; cbn [bind] in H; [|injection H as <- <-; destruct G as [G|G]; discriminate G|discriminate].
  exists l. split; [reflexivity|]. split.
  - intros ->. unfold load_eres in L. destruct (joined (v_ecus d) (v_eres d)) as [|(s0, w0) j]; [discriminate|]. cbn [of_rows bind] in L.
    destruct (of_row w0); cbn [bind] in L; [|discriminate]. destruct (of_rows j); cbn [bind] in L; discriminate.
  - destruct (result_loop c l _ _ _) as [((cur, raw'), err)|] eqn:R; cbn [bind] in H; [|discriminate].
    destruct (String.eqb_spec err "") as [->|N]; [injection H as <- <-; eapply loop_good; eauto|]. injection H as <- <-. destruct G as [G|G]; discriminate G.
Qed.

Section U.
Context (savec : json -> string) (loadc : string -> option json) (E : Env) (fnm : string -> string -> bool).
Context (P : primary) (W : world) (srv : server).
Lemma body_good clkd clki now ts s s' r raw reps : install_body savec loadc E fnm P W srv clkd clki now ts s = (s', Ok (r, raw, reps)) -> good_code r ->
  exists l, load_eres (p_dev s') = Ok (Some l) /\ l <> [] /\ Forall (fun e => known (client_of P) (fst e) /\ succeeded (snd e)) l.
Proof.
  unfold install_body. intros H G. apply gets_bind in H. apply pbind_inv in H. destruct H as [(oc & s1 & _ & H)|(e & _ & X)]; [|discriminate].
  assert (F : forall c d, c <> 0 -> ~ good_code (failure c d)) by (intros c d N [X|X]; [now apply N|discriminate]).
  assert (B : forall c d, c <> 0 -> r = failure c d -> False) by (intros c d N ->; exact (F c d N G)).
  destruct oc; try (injection H as _ <- _ _; exfalso; (apply (F kInternalError ""); [discriminate|exact G]) || (apply (F kAlreadyProcessed ""); [discriminate|exact G])).
  apply pbind_inv in H. destruct H as [(good & s2 & _ & H)|(e & _ & X)]; [|discriminate]. destruct good; cbn [negb] in H; [|injection H as _ <- _ _; destruct G as [G|G]; discriminate G].
  apply pbind_inv in H. destruct H as [(up & s3 & _ & H)|(e & _ & X)]; [|discriminate]. destruct up; cbn [negb] in H; [|injection H as _ <- _ _; destruct G as [G|G]; discriminate G].
  apply pbind_inv in H. destruct H as [(m & s4 & M & H)|(e & _ & X)]; [|discriminate]. destruct m as [r1|].
  - exfalso. injection H as _ <- _ _. unfold send_metadata_to_ecus in M. apply pbind_inv in M. destruct M as [(err & s5 & _ & M)|(e & _ & X)]; [|discriminate].
    injection M as _ M. destruct (String.eqb err ""); [discriminate|]. injection M as M. subst r1. destruct G as [G|G]; discriminate G.
  - apply pbind_inv in H. destruct H as [(pr & s5 & _ & H)|(e & _ & X)]; [|discriminate]. apply pbind_inv in H. destruct H as [(sr & s6 & _ & H)|(e & _ & X)]; [|discriminate].
    apply gets_bind in H. apply lift_bind in H. destruct H as [((a, b) & D & H)|(e & _ & _ & X)]; [|discriminate]. injection H as <- <- <- _. cbn [fst] in G. eapply device_good; eauto.
Qed.
Theorem vehicle_good clkd clki now ts s s' dr reps : uptane_install savec loadc E fnm P W srv clkd clki now ts s = (s', Ok (dr, reps)) ->
  rc_num (ir_code dr) = 0 \/ ir_success dr = true ->
  exists l, load_eres (p_dev s') = Ok (Some l) /\ l <> [] /\ Forall (fun e => known (client_of P) (fst e) /\ succeeded (snd e)) l.
Proof.
  intros H G. apply run_spec in H. destruct H as (s1 & yy & tl & B & A & [(_ & e & X)|(r0 & raw & reps0 & w & -> & [= <- <-] & R & ->)]); [discriminate|].
  destruct (body_good _ _ _ _ _ _ _ _ _ B G) as (l & L & N & F). exists l. split; [|auto].
  destruct A as (_ & _ & A3 & _). cbn [fold_left ev_dev] in A3. rewrite A3. unfold store_dres. rewrite R. exact L.
Qed.
End U.
