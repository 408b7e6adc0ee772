(** Proofs about aktualizr-cert-provider. *)
From Verif Require Import Base CodecModel CodecProofs ArcModel ArcSpec ArcProofs TufModel TufProofs RepoModel InstModel ConvModel CertModel CertSpec.

Definition content (E : env) (o : opts) (t : tls) (k : kind) : string :=
  match k with KKey => t_pkey t | KCert => t_cert t | KCa => t_ca t | KUrl => server_url E (o_creds o) end.
Definition tmp_of (E : env) (k : kind) : string := v_tmp E (match k with KKey => 0 | KCert => 1 | KCa => 2 | KUrl => 3 end)%nat.
Definition kinds (o : opts) : list kind := [KKey; KCert] ++ (if o_ca o then [KCa] else []) ++ (if o_url o then [KUrl] else []).

Lemma kinds_asked o k : In k (kinds o) <-> asked o k.
Proof.
  unfold kinds, asked. split.
  - cbn [app]. intros [<-|[<-|H]]; auto. apply in_app_or in H as [H|H].
    + destruct (o_ca o); [|destruct H]. destruct H as [<-|[]]. reflexivity.
    + destruct (o_url o); [|destruct H]. destruct H as [<-|[]]. reflexivity.
  - destruct k; intros H; cbn [app]; [now left|right; now left|..]; right; right; apply in_or_app; rewrite H; [left|right]; now left.
Qed.
Lemma kinds_nodup o : NoDup (kinds o).
Proof.
  unfold kinds. destruct (o_ca o), (o_url o); cbn [app]; repeat (apply NoDup_cons; [cbn [In]; intuition discriminate|]); apply NoDup_nil.
Qed.

Lemma outputs_spec E o t : outputs E o t = map (fun k => (tmp_of E k, place o k, content E o t k)) (kinds o).
Proof.
  unfold outputs, places, kinds, place, directory, name, or_else, tmp_of, content. destruct (o_config o) as [c|].
  - destruct (o_dir o) as [d|]; destruct (o_ca o), (o_url o); cbn [app map];
      destruct (String.eqb (k_base c) "") eqn:B; try rewrite B; destruct (String.eqb (k_path c) ""); try reflexivity.
  - destruct (o_dir o) as [d|]; destruct (o_ca o), (o_url o); reflexivity.
Qed.

Lemma copies_put E l : forall n w w', copies E n l w = (true, w') ->
  w_remote w' = w_remote w /\ w_cmds w' = w_cmds w /\
  (NoDup (map fst l) -> forall p c, In (p, c) l -> w_local w' p = Some c) /\
  (forall p, ~ In p (map fst l) -> w_local w' p = w_local w p).
Proof.
  induction l as [|[p c] l IH]; intros n w w' H; cbn [copies] in H.
  - injection H as <-. repeat split; auto. intros _ p c [].
  - destruct (v_copy E n); try discriminate. destruct (IH _ _ _ H) as (A & B & C & D). repeat split; auto.
    + intros ND q x [[= <- <-]|Hi]; cbn [map fst] in ND; inversion ND as [|y z N1 N2]; subst; [|now apply C].
      rewrite D by exact N1. cbn [set_local w_local]. unfold put. now rewrite String.eqb_refl.
    + intros q Hq. cbn [map fst In] in Hq. rewrite D by tauto. cbn [set_local w_local]. unfold put.
      destruct (String.eqb p q) eqn:Epq; [|reflexivity]. apply String.eqb_eq in Epq. tauto.
Qed.
Lemma copies_remote E l : forall n w b w', copies E n l w = (b, w') -> w_remote w' = w_remote w /\ w_cmds w' = w_cmds w.
Proof.
  induction l as [|[p c] l IH]; intros n w b w' H; cbn [copies] in H; [injection H as <- <-; auto|].
  destruct (v_copy E n); [|injection H as <- <-; auto..]. exact (IH _ _ _ _ H).
Qed.
Lemma transfers_put E o l : forall w, (forall n, v_cmd E n = true) ->
  fst (transfers E o l w) = true /\ w_local (snd (transfers E o l w)) = w_local w /\
  (NoDup (map (fun x => snd (fst x)) l) -> forall t p c, In (t, p, c) l -> w_remote (snd (transfers E o l w)) p = Some c) /\
  (forall p, ~ In p (map (fun x => snd (fst x)) l) -> w_remote (snd (transfers E o l w)) p = w_remote w p) /\
  w_cmds (snd (transfers E o l w)) = w_cmds w ++ List.concat (map (fun x => [mkdir_cmd o (snd (fst x)); scp_cmd o (fst (fst x)) (snd (fst x))]) l).
Proof.
  induction l as [|[[t p] c] l IH]; intros w V.
  - cbn [transfers fst snd map List.concat]. repeat split; auto; [intros _ t p c []|]. now rewrite List.app_nil_r.
  - cbn [transfers]. unfold transfer. rewrite !V. cbn [run w_local w_remote w_cmds w_posts].
    set (w2 := {| w_local := _; w_remote := _; w_cmds := _; w_posts := _ |}). destruct (IH w2 V) as (A & B & C & D & F). repeat split; auto.
    + intros ND t' q x [[= <- <- <-]|Hi]; cbn [map fst snd] in ND; inversion ND as [|y z N1 N2]; subst; [|now apply (C N2 t' q x)].
      rewrite D by exact N1. subst w2. cbn [w_remote]. unfold put. now rewrite String.eqb_refl.
    + intros q Hq. cbn [map fst snd In] in Hq. rewrite D by tauto. subst w2. cbn [w_remote]. unfold put.
      destruct (String.eqb p q) eqn:Epq; [|reflexivity]. apply String.eqb_eq in Epq. tauto.
    + rewrite F. subst w2. cbn [w_cmds map List.concat fst snd]. now rewrite <- !List.app_assoc.
Qed.
Lemma transfers_local E o l : forall w, w_local (snd (transfers E o l w)) = w_local w.
Proof.
  induction l as [|[[t p] c] l IH]; intros w; [reflexivity|]. cbn [transfers]. unfold transfer.
  destruct (v_cmd E _); [destruct (v_cmd E _)|]; cbn [snd]; try reflexivity. rewrite IH. reflexivity.
Qed.

Lemma credentials_local E o id w r w' : credentials E o id w = (r, w') ->
  w_local w' = w_local w /\ w_remote w' = w_remote w /\ w_cmds w' = w_cmds w.
Proof.
  unfold credentials. destruct (String.eqb (o_fleet_ca o) "").
  - destruct (bootstrap E (o_creds o)); [|intros [= <- <-]; auto]. destruct (v_post E _ _ _); intros [= <- <-]; auto.
  - intros [= <- <-]; auto.
Qed.
Lemma credentials_issued E o w t w' : credentials E o (device_name E o) w = (Ok t, w') ->
  Bool.eqb (String.eqb (o_fleet_ca o) "") (String.eqb (o_fleet_key o) "") = true -> issued E o (t_pkey t) (t_cert t).
Proof.
  unfold credentials. intros H B. destruct (String.eqb (o_fleet_ca o) "") eqn:F.
  - apply String.eqb_eq in F. left. split; [exact F|]. destruct (bootstrap E (o_creds o)) as [b|]; [|discriminate].
    destruct (v_post E _ _ _) as [body|] eqn:P; [|discriminate]. destruct (v_p12 E body) as [t'|] eqn:Q; [|discriminate].
    injection H as -> _. exists b, body, t. auto.
  - right. destruct (String.eqb (o_fleet_key o) "") eqn:K; [discriminate|]. apply String.eqb_neq in F, K. split; [exact F|]. split; [exact K|].
    injection H as H _. apply bind_ok in H as (? & _ & H). apply bind_ok in H as (? & _ & H). apply bind_ok in H as (? & _ & H).
    apply bind_ok in H as (kc & G & H). apply bind_ok in H as (ca & _ & H). injection H as <-. cbn [t_pkey t_cert].
    destruct kc as [k c]. eauto.
Qed.

Lemma map_apart o (f : string -> string) E t :
  apart o f -> NoDup (map (fun k => f (place o k)) (kinds o)) /\ NoDup (map fst (map (fun x : string * string * string => let '(_, p, c) := x in (f p, c)) (outputs E o t))).
Proof.
  intros A.
  assert (N : NoDup (map (fun k => f (place o k)) (kinds o))).
  { pose proof (kinds_nodup o) as ND. assert (S : forall k, In k (kinds o) -> asked o k) by (intros k; apply kinds_asked).
    clear E t. induction (kinds o) as [|k l IH]; [constructor|]. cbn [map]. inversion ND as [|y z N1 N2]; subst. constructor.
    - intros K. apply in_map_iff in K as (k' & K1 & K2). apply N1. rewrite <- (A k' k); [exact K2| | |exact K1]; apply S; [now right|now left].
    - apply IH; [exact N2|]. intros k' K. apply S. now right. }
  split; [exact N|]. rewrite outputs_spec, !map_map. exact N.
Qed.

(** ** Words *)
Lemma no_blank_app a b : has_char " " a = false -> has_char " " b = false -> has_char " " (append a b) = false.
Proof.
  unfold has_char. induction a as [|c a IH]; [auto|]. cbn [append split_first]. destruct (Ascii.eqb c " "); [discriminate|].
  destruct (split_first " " a) as [[x y]|]; [discriminate|]. intros _ H. specialize (IH eq_refl H).
  destruct (split_first " " (append a b)) as [[x y]|]; [discriminate|]. reflexivity.
Qed.
Lemma words_plain s : has_char " " s = false -> s <> "" -> words s = [s].
Proof.
  intros H N. unfold words. rewrite split_all_plain by exact H. cbn [filter]. now rewrite (proj2 (String.eqb_neq _ _) N).
Qed.
Lemma words_cons s r : has_char " " s = false -> s <> "" -> words (append s (String " " r)) = s :: words r.
Proof.
  intros H N. unfold words. rewrite split_all_app by exact H. cbn [filter]. now rewrite (proj2 (String.eqb_neq _ _) N).
Qed.
Lemma digits_no_blank f : forall n acc, 0 <= n -> has_char " " acc = false -> has_char " " (dec_digits f n acc) = false.
Proof.
  induction f as [|f IH]; intros n acc Hn Ha; cbn [dec_digits]; [exact Ha|].
  assert (D : has_char " " (String (digit_ascii (n mod 10)) acc) = false).
  { unfold has_char in *. cbn [split_first]. assert (R : 0 <= n mod 10 <= 9) by (pose proof (Z.mod_pos_bound n 10); lia).
    destruct (digit_plain _ R) as (Sp & _). destruct (Ascii.eqb (digit_ascii (n mod 10)) " ") eqn:Q.
    - apply Ascii.eqb_eq in Q. rewrite Q in Sp. discriminate.
    - destruct (split_first " " acc) as [[x y]|]; [discriminate|reflexivity]. }
  destruct (n / 10 =? 0); [exact D|]. apply IH; [apply Z.div_pos; lia|exact D].
Qed.
Lemma dec_no_blank z : has_char " " (to_dec z) = false /\ to_dec z <> "".
Proof.
  split; [|destruct (to_dec_nonempty z) as (c & s & ->); discriminate]. unfold to_dec. destruct (z <? 0) eqn:N.
  - apply Z.ltb_lt in N. apply (no_blank_app "-"); [reflexivity|]. apply digits_no_blank; [lia|reflexivity].
  - apply Z.ltb_ge in N. apply digits_no_blank; [lia|reflexivity].
Qed.
Lemma words_flags p q o rest : has_char " " q = false -> q <> "" -> p = append q " " ->
  words (append (flags p o) rest) = (if o_port o =? 22 then [] else [q; to_dec (o_port o)]) ++
    (if o_skip o then ["-o"; "StrictHostKeyChecking=no"] else []) ++ words rest.
Proof.
  intros Q1 Q2 ->. destruct (dec_no_blank (o_port o)) as [D1 D2]. unfold flags.
  assert (K : words (append (if o_skip o then "-o StrictHostKeyChecking=no " else "") rest) = (if o_skip o then ["-o"; "StrictHostKeyChecking=no"] else []) ++ words rest).
  { destruct (o_skip o); [|reflexivity].
    change (append "-o StrictHostKeyChecking=no " rest) with (append "-o" (String " " (append "StrictHostKeyChecking=no" (String " " rest)))).
    rewrite !words_cons by (reflexivity || discriminate). reflexivity. }
  rewrite <- append_assoc. destruct (o_port o =? 22); [exact K|]. rewrite <- !append_assoc. cbn [append]. rewrite words_cons by auto.
  rewrite words_cons by auto. now rewrite K.
Qed.
Lemma scp_words o tmp path : has_char " " tmp = false -> tmp <> "" -> has_char " " (o_target o) = false -> has_char " " path = false ->
  words (scp_cmd o tmp path) = ["scp"] ++ (if o_port o =? 22 then [] else ["-P"; to_dec (o_port o)]) ++
    (if o_skip o then ["-o"; "StrictHostKeyChecking=no"] else []) ++ [tmp; append (o_target o) (append ":" path)].
Proof.
  intros T N G P. unfold scp_cmd.
  change (append "scp " ?x) with (append "scp" (String " " x)). rewrite words_cons by (reflexivity || discriminate). cbn [app]. f_equal.
  rewrite (words_flags _ "-P") by (reflexivity || discriminate). f_equal. f_equal.
  cbn [append]. rewrite words_cons by auto. f_equal. apply words_plain.
  - apply no_blank_app; [exact G|]. apply (no_blank_app ":"); [reflexivity|exact P].
  - destruct (o_target o); discriminate.
Qed.
Lemma up_no_blank p : has_char " " p = false -> has_char " " (up p) = false.
Proof.
  induction p as [|c p IH]; [auto|]. intros H. cbn [up]. unfold has_char in H. cbn [split_first] in H.
  destruct (Ascii.eqb c " ") eqn:E; [discriminate|]. destruct (split_first " " p) as [[x y]|] eqn:S1; [discriminate|].
  destruct (has_char "/" p); [|reflexivity]. assert (K : has_char " " (up p) = false) by (apply IH; unfold has_char; now rewrite S1).
  unfold has_char in *. cbn [split_first]. rewrite E. destruct (split_first " " (up p)) as [[x y]|]; [discriminate|reflexivity].
Qed.
Lemma parent_no_blank p : has_char " " p = false -> has_char " " (parent p) = false.
Proof.
  unfold parent. intros H. assert (K := up_no_blank p H). destruct p as [|c p]; [reflexivity|].
  destruct (Ascii.eqb c "/") eqn:E.
  - apply Ascii.eqb_eq in E as ->. assert (has_char " " p = false).
    { unfold has_char in *. cbn [split_first] in H. change (Ascii.eqb "/" " ") with false in H. cbn iota in H.
      destruct (split_first " " p) as [[x y]|]; [discriminate|reflexivity]. }
    apply (no_blank_app "/"); [reflexivity|]. now apply up_no_blank.
  - replace (match c with "/"%char => String "/" (up p) | _ => up (String c p) end) with (up (String c p)); [exact K|].
    destruct c as [[] [] [] [] [] [] [] []]; try reflexivity. discriminate.
Qed.
Lemma mkdir_words o path : has_char " " (o_target o) = false -> o_target o <> "" -> has_char " " path = false -> parent path <> "" ->
  words (mkdir_cmd o path) = ["ssh"] ++ (if o_port o =? 22 then [] else ["-p"; to_dec (o_port o)]) ++
    (if o_skip o then ["-o"; "StrictHostKeyChecking=no"] else []) ++ [o_target o; "mkdir"; "-p"; parent path].
Proof.
  intros G N P Q. unfold mkdir_cmd.
  change (append "ssh " ?x) with (append "ssh" (String " " x)). rewrite words_cons by (reflexivity || discriminate). cbn [app]. f_equal.
  rewrite (words_flags _ "-p") by (reflexivity || discriminate). f_equal. f_equal.
  change (append " " ?x) with (String " " x). rewrite words_cons by auto. f_equal.
  change (append "mkdir -p " ?x) with (append "mkdir" (String " " (append "-p" (String " " x)))).
  rewrite !words_cons by (reflexivity || discriminate). do 2 f_equal. apply words_plain; [now apply parent_no_blank|exact Q].
Qed.
