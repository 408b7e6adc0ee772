(** Delegated roles and the Snapshot (C182), and what is stored of them (C183). *)
From Verif Require Import Base Json TufModel TufSpec TufProofs TufProofs2 MetaStore RepoModel RepoSpec RepoProofs RepoProofs2 RepoProofs3 RepoProofs4 RepoProofs5 RepoProofs6 RepoProofs8 Toy
  ClientModel ClientSpec ClientProofs ClientProofs2 PropsClient IterProofs2.

(** ** A small world *)
Definition gworld : list (string * json) := [
  ("R1", root_j "r1" 1 far 1 k1 k1);
  ("R2", root_j "r2" 2 far 1 k2 both);
  (* the Snapshot does not list "dev", to which the Targets delegate "app" *)
  ("TS", timestamp_j "ts" 5 far 5 "SN" k1);
  ("SN", doc_j "sn" "Snapshot" 5 far [("meta", JObj [meta_j "targets" 5 "TG"])] k1);
  ("TG", dtargets_j "tg" 5 far [] [drole_j "dev" "app" false] k1);
  ("DEVm", targets_j "devm" (-1) far app_t k1);
  (* the Snapshot lists version 9 of "dev" *)
  ("TS9", timestamp_j "ts9" 6 far 6 "SN9" k1);
  ("SN9", doc_j "sn9" "Snapshot" 6 far [("meta", JObj [meta_j "targets" 5 "TG"; meta_j "dev" 9 "DEV9"])] k1);
  ("DEV9", targets_j "dev9" 9 far app_t k1);
  (* after new keys were made: the versions start again *)
  ("TSn", timestamp_j "tsn" 1 far 1 "SNN" k2);
  ("SNn", doc_j "snn" "Snapshot" 1 far [("meta", JObj [meta_j "targets" 1 "TGN"; meta_j "dev" 2 "DEV2"])] k2);
  ("TGn", dtargets_j "tgn" 1 far [] [drole_j "dev" "app" false] k2);
  ("DEV2", targets_j "dev2" 2 far app_t k1)].
Definition GW : Env := toy gworld.
Definition gsrv (root2 : bool) (img : list (string * string)) : server :=
  fun rp rn v => if String.eqb rn "root" then (if v =? 1 then Ok "R1" else if root2 && (v =? 2) then Ok "R2" else Throw UFetchFailure)
    else match rp with Director => Throw UFetchFailure | Image => match aget rn img with Some d => Ok d | None => Throw UFetchFailure end end.
Definition gm := [("timestamp", "TS"); ("snapshot", "SN"); ("targets", "TG"); ("delegations/dev", "DEVm")].
Definition g9 := [("timestamp", "TS9"); ("snapshot", "SN9"); ("targets", "TG"); ("delegations/dev", "DEV9")].
Definition gn := [("timestamp", "TSn"); ("snapshot", "SNn"); ("targets", "TGn"); ("delegations/dev", "DEV2")].
Definition query : target := match u_itargets (fst (image_update DW (serve2 [] [("timestamp", "TSok"); ("snapshot", "SNok"); ("targets", "TGok")]) now2020 (mem0 db_empty))) with
  | Some t => hd (target_unknown DW) (tg_targets t) | None => target_unknown DW end.

(** ** C182: only delegated roles that the Snapshot lists are used *)
(** The Snapshot lists role [name], with version [v]. *)
Definition listed (sn : snapshot) (name : string) (v : Z) : Prop := aget name (sn_version sn) = Some v.
(** Every document of a delegated role that the client accepts is the version which the Snapshot lists. *)
Definition C182_statement : Prop := forall E srv off name parent s s' t,
  get_trusted_delegation E srv off name parent s = (s', Ok t) -> listed (u_isnap s) name (tg_version t).

(** What an accepted document is: stored or sent by the server; stored afterwards; signed as the delegator says; and of the
    listed version, unless the role is not listed (or listed as -1) and the document's own version is -1 or no whole number. *)
Theorem C182_partial E srv off name parent s s' t : get_trusted_delegation E srv off name parent s = (s', Ok t) ->
  exists raw, (load_delegation name (u_db s) = Ok (Some raw) \/ (off = false /\ srv Image (append "delegations/" name) (-1) = Ok raw)) /\
    (aget name (d_deleg (u_db s')) = Some raw \/ s' = s) /\
    (forall h, In h (role_hashes (u_isnap s) name) -> digest_matches E raw h) /\
    acceptable E (tg_ks parent) {| r_kind := RDelegation; r_name := name |} (parse E raw) /\
    targets_doc E name (parse E raw) t /\
    (listed (u_isnap s) name (tg_version t) \/
     (role_version (u_isnap s) name = -1 /\ (tg_version t = -1 \/ extract_version_untrusted E raw = Ok (-1)))).
Proof.
  unfold get_trusted_delegation. intros H. apply gets_inv in H. apply gets_inv in H.
  apply lift_inv in H. destruct H as [(stored & Hst & H) | (e & _ & _ & H)]; [|discriminate].
  apply mbind_inv in H. destruct H as [(s1 & local & Hl & H) | (e & _ & H)]; [|discriminate].
  apply mbind_inv in H. destruct H as [(s2 & raw & Hr & H) | (e & _ & H)]; [|discriminate].
  apply mbind_inv in H. destruct H as [(s3 & u & Hv & H) | (e & _ & H)]; [|discriminate].
  apply lift_inv in H. destruct H as [(t' & Ht & H) | (e & _ & _ & H)]; [|discriminate].
  apply mbind_inv in H. destruct H as [(s4 & u' & Hg & H) | (e & _ & H)]; [|discriminate].
  assert (E3 : s3 = s2) by (destruct (verify_role_hashes E (u_isnap s) raw name); inversion Hv; reflexivity).
  inversion H; subst t' s4; clear H.
  assert (Hd : verifiable_role {| r_kind := RDelegation; r_name := name |}) by (right; reflexivity).
  pose proof Ht as Ht0. apply targets_signed_ok in Ht; [|exact Hd]. destruct Ht as (Ha & Hdoc). simpl in Hdoc.
  assert (LV : tg_version t = role_version (u_isnap s) name -> listed (u_isnap s) name (tg_version t) \/ (role_version (u_isnap s) name = -1 /\ tg_version t = -1)).
  { intros Q. unfold listed. unfold role_version in *. destruct (aget name (sn_version (u_isnap s))); [left; congruence|right; split; [reflexivity|exact Q]]. }
  exists raw. destruct (String.eqb local "") eqn:Hrem.
  - assert (Src : off = false /\ srv Image (append "delegations/" name) (-1) = Ok raw).
    { destruct off; [discriminate|]. destruct (srv Image (append "delegations/" name) (-1)) as [r0|]; [|discriminate]. inversion Hr. split; reflexivity. }
    split; [right; exact Src|].
    apply mbind_inv in Hg. destruct Hg as [(s5 & u2 & Hg & Hw) | (e & _ & Hg)]; [|discriminate].
    split.
    { left. inversion Hw; subst. simpl. unfold store_delegation. simpl. rewrite aget_app, aget_del, String.eqb_refl. simpl. rewrite String.eqb_refl. reflexivity. }
    split.
    { unfold verify_role_hashes in Hv. destruct (check_hashes _ _ _ _) eqn:Hc in Hv; [|discriminate]. apply check_hashes_spec in Hc. apply Hc. }
    split; [exact Ha|]. split; [exact Hdoc|].
    unfold guard in Hg. destruct (tg_version t =? role_version (u_isnap s) name) eqn:He; [|discriminate].
    apply Z.eqb_eq in He. destruct (LV He) as [L|(L & M)]; [left; exact L|right; split; [exact L|left; exact M]].
  - inversion Hg; subst. inversion Hr; subst.
    destruct stored as [sraw|]; [|inversion Hl; subst; discriminate].
    apply lift_inv in Hl. destruct Hl as [(ver & Hver & Hl) | (e & _ & _ & Hl)]; [|discriminate].
    destruct (role_version (u_isnap s) name <? ver) eqn:L1; [discriminate|].
    destruct (ver <? role_version (u_isnap s) name) eqn:L2.
    { apply mbind_inv in Hl. destruct Hl as [(s5 & u2 & _ & Hl) | (e & _ & Hl)]; [|discriminate]. inversion Hl; subst; discriminate. }
    inversion Hl; subst. split; [left; exact Hst|]. split; [right; reflexivity|].
    split.
    { unfold verify_role_hashes in Hv. destruct (check_hashes _ _ _ _) eqn:Hc in Hv; [|discriminate]. apply check_hashes_spec in Hc. apply Hc. }
    split; [exact Ha|]. split; [exact Hdoc|].
    apply Z.ltb_ge in L1. apply Z.ltb_ge in L2. assert (Hve : ver = role_version (u_isnap s') name) by lia.
    destruct (Z.eq_dec ver (-1)) as [Q|Q].
    + right. split; [congruence|]. right. congruence.
    + destruct Hdoc as (Hb & _). pose proof (extract_base' _ _ _ _ Hver Hb Q) as Y.
      destruct (LV (eq_trans Y Hve)) as [L|(L & M)]; [left; exact L|right; split; [exact L|left; exact M]].
Qed.
Print Assumptions C182_partial.
(** So a document whose version is a number from 0 on is used exactly in the version which the Snapshot lists. *)
Theorem C182_numbered E srv off name parent s s' t : get_trusted_delegation E srv off name parent s = (s', Ok t) ->
  (forall raw v, (load_delegation name (u_db s) = Ok (Some raw) \/ srv Image (append "delegations/" name) (-1) = Ok raw) ->
     extract_version_untrusted E raw = Ok v -> 0 <= v) -> 0 <= tg_version t ->
  listed (u_isnap s) name (tg_version t).
Proof.
  intros H N P. destruct (C182_partial E srv off name parent s s' t H) as (raw & Src & _ & _ & _ & Doc & [L|(R & [M|M])]); [exact L|lia|].
  assert (Z0 : 0 <= -1); [|lia]. apply (N raw (-1)); [|exact M]. destruct Src as [Q|(_ & Q)]; [left|right]; exact Q.
Qed.
Print Assumptions C182_numbered.

(** False in general: the target is found although the Snapshot does not list the role that vouches for it. *)
Theorem C182_refuted : ~ C182_statement.
Proof.
  intros H. set (s := fst (image_update GW (gsrv false gm) now2020 (mem0 db_empty))).
  destruct (u_itargets s) as [top|] eqn:T; [|vm_compute in T; discriminate].
  assert (G : exists s' t, get_trusted_delegation GW (gsrv false gm) false "dev" top s = (s', Ok t) /\ tg_version t = -1).
  { vm_compute in T. injection T as <-. unfold s. vm_compute. eexists. eexists. split; reflexivity. }
  destruct G as (s' & t & G & _). specialize (H _ _ _ _ _ _ _ _ G). unfold listed, s in H. vm_compute in H. discriminate.
Qed.
Print Assumptions C182_refuted.
Theorem C182_search_refuted : exists s s' i, image_update GW (gsrv false gm) now2020 (mem0 db_empty) = (s, Ok tt) /\
  map fst (sn_version (u_isnap s)) = ["targets"] /\
  find_target_in_tree GW eqfnm (gsrv false gm) now1 false query s = (s', Ok (Some i)) /\ t_filename i = "app".
Proof. do 3 eexists. split; [vm_compute; reflexivity|]. split; [vm_compute; reflexivity|]. split; vm_compute; reflexivity. Qed.
Print Assumptions C182_search_refuted.

(** ** C183: a delegated role that the server offers correctly can be used, whatever was stored of it before *)
(** [raw] is an authentic document of role [name] in the version that the Snapshot lists. *)
Definition current_doc (E : Env) (sn : snapshot) (parent : targets) (name raw : string) (t : targets) : Prop :=
  (forall h, In h (role_hashes sn name) -> digest_matches E raw h) /\
  acceptable E (tg_ks parent) {| r_kind := RDelegation; r_name := name |} (parse E raw) /\
  targets_doc E name (parse E raw) t /\ listed sn name (tg_version t).
Definition C183_statement : Prop := forall E srv name parent s raw t, current_doc E (u_isnap s) parent name raw t ->
  srv Image (append "delegations/" name) (-1) = Ok raw -> exists s' t', get_trusted_delegation E srv false name parent s = (s', Ok t').

(** True if nothing is stored, or something older than what the Snapshot lists; the new document is stored. *)
Theorem C183_partial E srv name parent s raw t : current_doc E (u_isnap s) parent name raw t ->
  srv Image (append "delegations/" name) (-1) = Ok raw ->
  (load_delegation name (u_db s) = Ok None \/
   exists old v, load_delegation name (u_db s) = Ok (Some old) /\ extract_version_untrusted E old = Ok v /\ v < tg_version t) ->
  exists s', get_trusted_delegation E srv false name parent s = (s', Ok t) /\ aget name (d_deleg (u_db s')) = Some raw.
Proof.
  intros (Hh & Ha & Hd & Hl) Hs St.
  assert (V : role_version (u_isnap s) name = tg_version t) by (unfold role_version; rewrite Hl; reflexivity).
  destruct (hashes_complete E raw (role_hashes (u_isnap s) name) false Hh) as (o & Ho).
  assert (Hhash : verify_role_hashes E (u_isnap s) raw name = Ok tt) by (unfold verify_role_hashes; now rewrite Ho).
  assert (Hp := targets_signed_complete E (tg_ks parent) {| r_kind := RDelegation; r_name := name |} _ _ (or_intror eq_refl) Ha Hd).
  unfold get_trusted_delegation, mbind, gets, lift. rewrite V.
  destruct St as [ -> | (old & v & -> & -> & L)].
  - unfold ret. cbn [String.eqb]. rewrite Hs, Hhash, Hp. cbv beta iota zeta. unfold guard. rewrite Z.eqb_refl. cbn [negb].
    unfold write, modify, ret. cbv beta iota zeta. eexists. split; [reflexivity|]. simpl. rewrite aget_app, aget_del, String.eqb_refl. simpl. rewrite String.eqb_refl. reflexivity.
  - assert (A1 : tg_version t <? v = false) by (apply Z.ltb_ge; lia). assert (A2 : v <? tg_version t = true) by (apply Z.ltb_lt; lia).
    rewrite A1, A2. unfold write, modify, ret. cbv beta iota zeta. cbn [String.eqb]. rewrite Hs, Hhash, Hp. cbv beta iota zeta. unfold guard. rewrite Z.eqb_refl. cbn [negb].
    cbv beta iota zeta. eexists. split; [reflexivity|]. simpl. rewrite aget_app, aget_del, String.eqb_refl. simpl. rewrite String.eqb_refl. reflexivity.
Qed.
Print Assumptions C183_partial.

(** Updates of the Image repository's metadata, rotations of its Root included, keep what is stored of delegated roles. *)
Lemma dd_stores ws : forall d, d_deleg (stores Image ws d) = d_deleg d.
Proof. induction ws as [|(ty, raw) ws IH]; intros d; cbn [stores]; [reflexivity|]. rewrite IH. reflexivity. Qed.
Lemma dd_chain l : forall d, d_deleg (chain_db Image l d) = d_deleg d.
Proof. induction l as [|(v, raw) l IH]; intros d; cbn [chain_db]; [reflexivity|]. rewrite IH. reflexivity. Qed.
Lemma dd_first o d : d_deleg (first_db Image o d) = d_deleg d.
Proof. destruct o; reflexivity. Qed.
Lemma image_update_deleg E srv clk s s' r : image_update E srv clk s = (s', r) -> d_deleg (u_db s') = d_deleg (u_db s).
Proof.
  intros H. apply image_update_phases in H. destruct H as (s0 & s1 & x & D0 & _ & U & _ & _ & K).
  apply update_root_spec in U. destruct U as (o & l & Ro & _ & D1 & _).
  assert (A : d_deleg (u_db s1) = d_deleg (u_db s)) by (rewrite <- D0, D1, dd_chain, dd_first; reflexivity).
  destruct K as [(e & _ & -> & _)|(_ & s2 & x2 & T & K)]; [exact A|]. apply ts_block_spec in T. destruct T as (_ & _ & _ & _ & T).
  assert (B : d_deleg (u_db s2) = d_deleg (u_db s)).
  { rewrite <- A. destruct T as [((D2 & _) & _)|(raw & re & lo & _ & _ & _ & _ & _ & (D2 & _) & _)]; rewrite D2; apply dd_stores. }
  destruct K as [(e & _ & -> & _)|(_ & s3 & x3 & N & K)]; [exact B|]. apply snap_block_spec in N. destruct N as (_ & _ & _ & _ & ws & (D3 & _) & _).
  assert (C : d_deleg (u_db s3) = d_deleg (u_db s)) by (rewrite <- B, D3; apply dd_stores).
  destruct K as [(e & _ & -> & _)|(_ & K)]; [exact C|]. apply tgt_block_spec in K. destruct K as (_ & _ & _ & _ & ws2 & (D4 & _) & _).
  rewrite <- C, D4. apply dd_stores.
Qed.
(** A history of metadata updates and attempts to use role [name] with any servers, and restarts of the program (what is in
    memory is lost). [false] in the result: some attempt succeeded. *)
Inductive attempt := AUpdate (srv : server) (clk : clock) | AUse (srv : server) (off : bool) (parent : targets) | ARestart.
Fixpoint history (E : Env) (name : string) (s : ust) (l : list attempt) : ust * bool :=
  match l with
  | [] => (s, true)
  | AUpdate srv clk :: l' => history E name (fst (image_update E srv clk s)) l'
  | AUse srv off parent :: l' => match get_trusted_delegation E srv off name parent s with
                                 | (s', Ok _) => (s', false)
                                 | (s', Throw _) => history E name s' l'
                                 end
  | ARestart :: l' => history E name (mem0 (u_db s)) l'
  end.
(** Everything the history's Snapshots list for the role is below [v]: so it is when the versions start again after an attack. *)
Fixpoint always_below (E : Env) (name : string) (v : Z) (s : ust) (l : list attempt) : Prop :=
  match l with
  | [] => True
  | AUpdate srv clk :: l' => always_below E name v (fst (image_update E srv clk s)) l'
  | AUse srv off parent :: l' => role_version (u_isnap s) name < v /\ always_below E name v (fst (get_trusted_delegation E srv off name parent s)) l'
  | ARestart :: l' => always_below E name v (mem0 (u_db s)) l'
  end.
(** Once a document with a higher version was stored, the role cannot be used again while the Snapshots list lower ones,
    whatever the servers offer. *)
Theorem C183_stuck E name v : forall l s raw, load_delegation name (u_db s) = Ok (Some raw) -> extract_version_untrusted E raw = Ok v ->
  always_below E name v s l -> snd (history E name s l) = true /\ load_delegation name (u_db (fst (history E name s l))) = Ok (Some raw).
Proof.
  induction l as [|a l IH]; intros s raw Hs Hv B; [split; [reflexivity|exact Hs]|].
  destruct a as [srv clk|srv off parent|]; cbn [history always_below] in *.
  - apply IH; [|exact Hv|exact B]. destruct (image_update E srv clk s) as (s1, r) eqn:U. simpl.
    unfold load_delegation in *. rewrite (image_update_deleg E srv clk s s1 r U). exact Hs.
  - destruct B as (L & B).
    assert (G : get_trusted_delegation E srv off name parent s = (s, Throw USecurity)).
    { unfold get_trusted_delegation, mbind, gets, lift. rewrite Hs, Hv. apply Z.ltb_lt in L. rewrite L. reflexivity. }
    rewrite G in *. apply IH; assumption.
  - apply IH; [exact Hs|exact Hv|exact B].
Qed.
Print Assumptions C183_stuck.

(** False in general: the Image repository recovered from a compromise by new keys and new metadata, the metadata update
    succeeds, but the delegated role cannot be used because of its stored version. *)
Definition s9 : ust := fst (find_target_in_tree GW eqfnm (gsrv false g9) now1 false query (fst (image_update GW (gsrv false g9) now2020 (mem0 db_empty)))).
Definition s_new : ust := fst (image_update GW (gsrv true gn) now2020 s9).
Theorem C183_refuted : ~ C183_statement.
Proof.
  intros H. destruct (u_itargets s_new) as [top|] eqn:T; [|vm_compute in T; discriminate].
  assert (C : exists t, targets_of_json_signed GW (unpack_signed GW (tg_ks top)) {| r_kind := RDelegation; r_name := "dev" |} (parse GW "DEV2") = Ok t /\ tg_version t = 2).
  { vm_compute in T. injection T as <-. vm_compute. eexists. split; reflexivity. }
  destruct C as (t & C & V2). apply targets_signed_ok in C; [|right; reflexivity]. destruct C as (Ha & Hd).
  destruct (H GW (gsrv true gn) "dev" top s_new "DEV2" t) as (s' & t' & G).
  - split; [|split; [exact Ha|split; [exact Hd|unfold listed; rewrite V2; vm_compute; reflexivity]]].
    assert (K : exists o, check_hashes GW (canon GW (parse GW "DEV2")) (role_hashes (u_isnap s_new) "dev") false = Some o) by (eexists; vm_compute; reflexivity).
    destruct K as (o & K). apply check_hashes_spec in K. apply K.
  - reflexivity.
  - vm_compute in T. injection T as <-. unfold s_new, s9 in G. vm_compute in G. discriminate G.
Qed.
Print Assumptions C183_refuted.
Example C183_updates_work : snd (image_update GW (gsrv false g9) now2020 (mem0 db_empty)) = Ok tt /\
  match snd (find_target_in_tree GW eqfnm (gsrv false g9) now1 false query (fst (image_update GW (gsrv false g9) now2020 (mem0 db_empty)))) with Ok (Some _) => True | _ => False end /\
  snd (image_update GW (gsrv true gn) now2020 s9) = Ok tt /\ load_latest_root Image (u_db s_new) = Ok (Some "R2") /\
  snd (find_target_in_tree GW eqfnm (gsrv true gn) now1 false query s_new) = Throw USecurity.
Proof. repeat split; vm_compute; reflexivity. Qed.
(** On a fresh device the same server is fine. *)
Example C183_case : match snd (find_target_in_tree GW eqfnm (gsrv true gn) now1 false query (fst (image_update GW (gsrv true gn) now2020 (mem0 db_empty)))) with
  Ok (Some i) => t_filename i = "app" | _ => False end.
Proof. vm_compute. reflexivity. Qed.
