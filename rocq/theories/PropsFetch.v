(** C163: what is fetched from an OSTree server is what it sent. C164: an object is asked for a bounded number of times and once had is
    not asked for again. *)
From Verif Require Import Base FetchModel.

(** ** Specification *)
(** OSTree's extensions of the four kinds of objects (in an archive repository). *)
Definition kind_ext (t : otype) : string :=
  match t with TFile => ".filez" | TTree => ".dirtree" | TMeta => ".dirmeta" | TCommit => ".commit" end.
(** The local file of an object of that hash and type: objects/ab/cdef….ext *)
Definition object_file (h : string) (t : otype) : string :=
  append "objects/" (append (substring 0 2 h) (append "/" (append (substring 2 (String.length h - 2) h) (kind_ext t)))).
Definition is_hash (h : string) : Prop := String.length h = 64%nat.

(** Every call that gives an object gives one whose file, then and at the end, is exactly what the server sent in full for it; and at
    the end no other file was left by these calls. *)
Definition as_sent (s : ost) (file : string) : Prop := exists b, o_fs s file = Some b /\ In (file, Done b) (o_log s).
Definition faithful (srv : nat -> string -> answer) (fs0 : string -> option string) (calls : list (string * option otype)) : Prop :=
  forall s rs, gets srv calls (fresh fs0) = (s, rs) ->
    (forall i h t p, nth_error calls i = Some (h, t) -> nth_error rs i = Some (Some p) -> exists t', local p = object_file h t' /\ as_sent s (local p)) /\
    (forall file b, o_fs s file = Some b -> In (file, Done b) (o_log s) \/ fs0 file = Some b).
Definition C163_statement : Prop :=
  forall srv fs0 calls, (forall h t, In (h, t) calls -> is_hash h) -> faithful srv fs0 calls.
(** No file lies there that is longer than what the server sends for it. *)
Definition no_longer (srv : nat -> string -> answer) (fs0 : string -> option string) : Prop :=
  forall file old n b, fs0 file = Some old -> srv n file = Done b -> (String.length old <= String.length b)%nat.

(** ** Strings *)
Lemma overlay_exact : forall new old, (String.length old <= String.length new)%nat -> overlay new old = new.
Proof.
  induction new as [|c n IH]; intros [|d o] H; cbn in *; try reflexivity; [lia|]. rewrite IH by lia. reflexivity.
Qed.
Lemma append_inj : forall a b x y, String.length a = String.length b -> append a x = append b y -> a = b /\ x = y.
Proof.
  induction a as [|c a IH]; intros [|d b] x y L E; cbn in *; try discriminate; [split; [reflexivity|exact E]|].
  injection L as L. injection E as -> E. destruct (IH _ _ _ L E) as [-> ->]. split; reflexivity.
Qed.
Lemma obj_path_spec : forall h t, is_hash h -> local (append (obj_path h) (ext t)) = object_file h t.
Proof.
  intros h t H. unfold is_hash in H. destruct h as [|a [|b r]]; try discriminate. unfold local, object_file, obj_path.
  cbn [substring String.length Nat.sub append]. rewrite Nat.sub_0_r.
  assert (E : forall s, substring 0 (String.length s) s = s) by (induction s as [|c s IH]; [reflexivity|cbn; rewrite IH; reflexivity]).
  cbn [substring append]. rewrite E. replace (substring 0 0 r) with "" by (destruct r; reflexivity). destruct t; reflexivity.
Qed.
Lemma object_file_inj : forall h h' t t', is_hash h -> is_hash h' -> object_file h t = object_file h' t' -> h = h'.
Proof.
  intros h h' t t' H H' E. rewrite <- !obj_path_spec in E by assumption. unfold local in E.
  apply append_inj in E; [|reflexivity]. destruct E as [_ E].
  unfold is_hash in *. destruct h as [|a [|b r]]; try discriminate. destruct h' as [|a' [|b' r']]; try discriminate.
  cbn [obj_path append String.length] in *. injection E as -> -> E. apply append_inj in E; [|lia]. destruct E as [-> _]. reflexivity.
Qed.

(** ** C163 *)
(** The table's files are as sent; other files are those of the beginning. *)
Definition good (fs0 : string -> option string) (s : ost) : Prop :=
  (forall h p, aget h (o_tab s) = Some p -> is_hash h /\ exists t, local p = object_file h t /\ as_sent s (local p)) /\
  (forall file b, o_fs s file = Some b -> (exists h t, is_hash h /\ aget h (o_tab s) <> None /\ file = object_file h t /\ In (file, Done b) (o_log s)) \/ fs0 file = Some b).

Lemma fetch_good : forall srv fs0 h t s, no_longer srv fs0 -> is_hash h -> good fs0 s -> aget h (o_tab s) = None ->
  let p := append (obj_path h) (ext t) in
  let '(s1, ok) := check_for srv h p s in
  good fs0 s1 /\ (if ok then aget h (o_tab s1) = Some p else o_tab s1 = o_tab s).
Proof.
  intros srv fs0 h t s NL Hh [G1 G2] Hn p. unfold check_for, fetch. pose proof (obj_path_spec h t Hh) as Hp. fold p in Hp. rewrite Hp.
  set (a := srv _ _). destruct a as [|w|b] eqn:Ea.
  - split; [|reflexivity]. split.
    + cbn [o_tab o_fs o_log]. intros h' p' Ha. destruct (G1 _ _ Ha) as (Hh' & t' & E & b & Eb & Hin). split; [exact Hh'|]. exists t'. split; [exact E|].
      exists b. split; [exact Eb|]. right. exact Hin.
    + cbn [o_tab o_fs o_log]. intros f b Hf. destruct (G2 _ _ Hf) as [(h' & t' & A & B & C & D)|F]; [left; exists h', t'; split; [exact A|split; [exact B|split; [exact C|right; exact D]]]|right; exact F].
  - split; [|reflexivity]. split.
    + cbn [o_tab o_fs o_log]. intros h' p' Ha. destruct (G1 _ _ Ha) as (Hh' & t' & E & b & Eb & Hin). split; [exact Hh'|]. exists t'. split; [exact E|].
      exists b. split; [|right; exact Hin]. cbn [o_fs]. unfold put_fs. destruct (String.eqb_spec (local p') (object_file h t)) as [Eq|_]; [|exact Eb].
      rewrite E in Eq. apply object_file_inj in Eq; [|assumption|assumption]. subst h'. congruence.
    + cbn [o_tab o_fs o_log]. intros f b. unfold put_fs. destruct (String.eqb_spec f (object_file h t)); [discriminate|]. intros Hf.
      destruct (G2 _ _ Hf) as [(h' & t' & A & B & C & D)|F]; [left; exists h', t'; split; [exact A|split; [exact B|split; [exact C|right; exact D]]]|right; exact F].
  - assert (Ov : over b (o_fs s (object_file h t)) = b).
    { destruct (o_fs s (object_file h t)) as [old|] eqn:Eo; [|reflexivity]. cbn [over]. apply overlay_exact.
      destruct (G2 _ _ Eo) as [(h' & t' & A & B & C & _)|F].
      - apply object_file_inj in C; [|assumption|assumption]. subst h'. congruence.
      - exact (NL _ _ _ _ F Ea). }
    rewrite Ov. split.
    + split.
      * cbn [o_tab o_fs o_log aget]. intros h' p'. destruct (String.eqb_spec h' h) as [->|Hne].
        { intros E. injection E as <-. split; [exact Hh|]. exists t. split; [exact Hp|]. exists b. cbn [o_fs o_log]. unfold put_fs.
          rewrite Hp, String.eqb_refl. split; [reflexivity|left; reflexivity]. }
        intros Ha. destruct (G1 _ _ Ha) as (Hh' & t' & E & b' & Eb & Hin). split; [exact Hh'|]. exists t'. split; [exact E|].
        exists b'. split; [|right; exact Hin]. cbn [o_fs]. unfold put_fs. destruct (String.eqb_spec (local p') (object_file h t)) as [Eq|_]; [|exact Eb].
        rewrite E in Eq. apply object_file_inj in Eq; [|assumption|assumption]. contradiction.
      * cbn [o_tab o_fs o_log]. intros f b'. unfold put_fs. destruct (String.eqb_spec f (object_file h t)) as [->|Hne].
        { intros E. injection E as <-. left. exists h, t. split; [exact Hh|]. cbn [aget]. rewrite String.eqb_refl. split; [discriminate|].
          split; [reflexivity|left; reflexivity]. }
        intros Hf. destruct (G2 _ _ Hf) as [(h' & t' & A & B & C & D)|F]; [|right; exact F].
        left. exists h', t'. split; [exact A|]. split; [cbn [aget]; destruct (String.eqb h' h); [discriminate|exact B]|]. split; [exact C|right; exact D].
    + cbn [o_tab aget]. rewrite String.eqb_refl. reflexivity.
Qed.

Lemma try_good : forall srv fs0 h l s, no_longer srv fs0 -> is_hash h -> good fs0 s -> aget h (o_tab s) = None ->
  let '(s1, r) := try_types srv h l s in
  good fs0 s1 /\ match r with Some p => aget h (o_tab s1) = Some p | None => o_tab s1 = o_tab s end /\
  (forall h' p, aget h' (o_tab s) = Some p -> aget h' (o_tab s1) = Some p).
Proof.
  intros srv fs0 h l. induction l as [|t l IH]; intros s NL Hh G Hn; cbn [try_types]; [split; [exact G|split; [reflexivity|auto]]|].
  pose proof (fetch_good srv fs0 h t s NL Hh G Hn) as HF. cbn zeta in HF. unfold check_for in *.
  destruct (fetch srv (local (append (obj_path h) (ext t))) s) as [s1 ok] eqn:Ef.
  assert (Et : o_tab s1 = o_tab s).
  { unfold fetch in Ef. destruct (srv _ _); injection Ef as <- <-; reflexivity. }
  destruct ok.
  - destruct HF as [G1 HF]. split; [exact G1|]. split; [exact HF|]. intros h' p. cbn [o_tab aget]. rewrite Et.
    destruct (String.eqb_spec h' h) as [->|]; [congruence|auto].
  - destruct HF as [G1 HF]. specialize (IH s1 NL Hh G1). rewrite HF in IH. specialize (IH Hn).
    destruct (try_types srv h l s1) as [s2 r]. destruct IH as (G2 & A & B). split; [exact G2|]. split; [|intros h' p Hp; apply B; rewrite ?HF; exact Hp].
    destruct r; [exact A|congruence].
Qed.
Lemma attempts_good : forall srv fs0 h l n s, no_longer srv fs0 -> is_hash h -> good fs0 s -> aget h (o_tab s) = None ->
  let '(s1, r) := attempts srv n h l s in
  good fs0 s1 /\ (forall p, r = Some p -> aget h (o_tab s1) = Some p) /\ (forall h' p, aget h' (o_tab s) = Some p -> aget h' (o_tab s1) = Some p).
Proof.
  intros srv fs0 h l n. induction n as [|n IH]; intros s NL Hh G Hn; cbn [attempts]; [split; [exact G|split; [discriminate|auto]]|].
  pose proof (try_good srv fs0 h l s NL Hh G Hn) as HT. destruct (try_types srv h l s) as [s1 [p|]].
  - destruct HT as (G1 & A & B). split; [exact G1|]. split; [|exact B]. intros q E. injection E as <-. exact A.
  - destruct HT as (G1 & A & B). specialize (IH s1 NL Hh G1). rewrite A in IH. specialize (IH Hn).
    destruct (attempts srv n h l s1) as [s2 r]. destruct IH as (G2 & C & D). split; [exact G2|]. split; [exact C|]. intros h' q Hq. apply D. rewrite ?A. exact Hq.
Qed.
Lemma get_good : forall srv fs0 h t s, no_longer srv fs0 -> is_hash h -> good fs0 s ->
  let '(s1, r) := get_object srv h t s in
  good fs0 s1 /\ (forall p, r = Some p -> aget h (o_tab s1) = Some p) /\ (forall h' p, aget h' (o_tab s) = Some p -> aget h' (o_tab s1) = Some p).
Proof.
  intros srv fs0 h t s NL Hh G. unfold get_object. destruct (aget h (o_tab s)) as [p|] eqn:E.
  - split; [exact G|]. split; [|auto]. intros q Eq. injection Eq as <-. exact E.
  - exact (attempts_good srv fs0 h (types_of t) 3 s NL Hh G E).
Qed.
Lemma gets_good : forall srv fs0, no_longer srv fs0 -> forall l s, (forall h t, In (h, t) l -> is_hash h) -> good fs0 s ->
  let '(s1, rs) := gets srv l s in
  good fs0 s1 /\ (forall i h t p, nth_error l i = Some (h, t) -> nth_error rs i = Some (Some p) -> aget h (o_tab s1) = Some p) /\
  (forall h' p, aget h' (o_tab s) = Some p -> aget h' (o_tab s1) = Some p).
Proof.
  intros srv fs0 NL l. induction l as [|[h t] l IH]; intros s Hl G; cbn [gets]; [split; [exact G|split; [intros [|i]; discriminate|auto]]|].
  pose proof (get_good srv fs0 h t s NL (Hl _ _ (or_introl eq_refl)) G) as HG. destruct (get_object srv h t s) as [s1 r]. destruct HG as (G1 & A & B).
  specialize (IH s1 (fun h' t' Hin => Hl h' t' (or_intror Hin)) G1). destruct (gets srv l s1) as [s2 rs]. destruct IH as (G2 & C & D).
  split; [exact G2|]. split; [|intros h' p Hp; apply D, B, Hp].
  intros [|i] h' t' p E1 E2; cbn in E1, E2; [|exact (C i h' t' p E1 E2)]. injection E1 as <- <-. injection E2 as ->. apply D, A. reflexivity.
Qed.

(** C163, for a directory without a longer file of the same name, such as an empty one. *)
Theorem C163_partial : forall srv fs0 calls, (forall h t, In (h, t) calls -> is_hash h) -> no_longer srv fs0 -> faithful srv fs0 calls.
Proof.
  intros srv fs0 calls Hc NL s rs E.
  assert (G0 : good fs0 (fresh fs0)) by (split; cbn [fresh o_tab o_fs aget]; [discriminate|intros f b H; right; exact H]).
  pose proof (gets_good srv fs0 NL calls (fresh fs0) Hc G0) as H. rewrite E in H. destruct H as ([G1 G2] & A & _). split.
  - intros i h t p E1 E2. destruct (G1 _ _ (A _ _ _ _ E1 E2)) as (_ & t' & Et & Hs). exists t'. split; [exact Et|exact Hs].
  - intros f b Hf. destruct (G2 _ _ Hf) as [(h & t & _ & _ & _ & Hin)|F]; [left; exact Hin|right; exact F].
Qed.

(** A longer file of an earlier run: the object that is "fetched" has the end of the old one. *)
Definition h0 : string := "0123456789abcdef0123456789abcdef0123456789abcdef0123456789abcdef".
Theorem C163_refuted : ~ C163_statement.
Proof.
  intros H. set (f := object_file h0 TCommit).
  destruct (H (fun _ _ => Done "new") (put_fs f (Some "older") (fun _ => None)) [(h0, Some TCommit)]) with
    (s := fst (gets (fun _ _ => Done "new") [(h0, Some TCommit)] (fresh (put_fs f (Some "older") (fun _ => None)))))
    (rs := snd (gets (fun _ _ => Done "new") [(h0, Some TCommit)] (fresh (put_fs f (Some "older") (fun _ => None))))) as [A _].
  - intros h t [E|[]]. injection E as <- <-. reflexivity.
  - destruct (gets _ _ _); reflexivity.
  - destruct (A 0%nat h0 (Some TCommit) (append (obj_path h0) (ext TCommit)) eq_refl) as (t' & _ & b & Eb & Hin); [vm_compute; reflexivity|].
    vm_compute in Eb. injection Eb as <-. vm_compute in Hin. destruct Hin as [E|[]]. discriminate.
Qed.

(** ** C164 *)
(** The files a call may ask for. *)
Definition candidates (h : string) (t : option otype) : list string := map (object_file h) (match t with Some x => [x] | None => [TFile; TTree; TMeta; TCommit] end).
Definition failed (e : string * answer) : Prop := match snd e with Done _ => False | _ => True end.
(** A call asks only for the object's own files, three times each at most, and gives up only if every one of these transfers failed. It
    asks for nothing if it has an object of that hash. *)
Definition bounded_call (srv : nat -> string -> answer) (s : ost) (h : string) (t : option otype) : Prop :=
  forall s' r, get_object srv h t s = (s', r) ->
  exists new, o_log s' = new ++ o_log s /\ (forall e, In e new -> In (fst e) (candidates h t)) /\
    (List.length new <= 3 * List.length (candidates h t))%nat /\
    match r with
    | None => List.length new = (3 * List.length (candidates h t))%nat /\ forall e, In e new -> failed e
    | Some p => new = [] /\ aget h (o_tab s) = Some p \/
                exists b rest, new = (local p, Done b) :: rest /\ forall e, In e rest -> failed e
    end.

Lemma try_log : forall srv h l s s' r, is_hash h -> try_types srv h l s = (s', r) ->
  exists new, o_log s' = new ++ o_log s /\ (forall e, In e new -> In (fst e) (map (object_file h) l)) /\
    (List.length new <= List.length l)%nat /\
    match r with
    | None => List.length new = List.length l /\ forall e, In e new -> failed e
    | Some p => exists b rest, new = (local p, Done b) :: rest /\ forall e, In e rest -> failed e
    end.
Proof.
  intros srv h l. induction l as [|t l IH]; intros s s' r Hh E; cbn [try_types] in E.
  { injection E as <- <-. exists []. split; [reflexivity|]. split; [intros e []|]. split; [cbn; lia|]. split; [reflexivity|intros e []]. }
  unfold check_for, fetch in E. pose proof (obj_path_spec h t Hh) as Hp. rewrite Hp in E.
  destruct (srv _ _) as [|w|b] eqn:Ea; cbn [o_fs o_tab o_log] in E.
  1, 2: destruct (IH _ _ _ Hh E) as (new & A & B & C & D); cbn [o_log] in A;
    exists (new ++ [(object_file h t, srv (List.length (o_log s)) (object_file h t))]);
    (split; [rewrite A, Ea, <- List.app_assoc; reflexivity|]);
    (split; [intros e He; apply in_app_or in He; destruct He as [He|[<-|[]]]; [right; exact (B e He)|left; reflexivity]|]);
    (split; [rewrite app_length; cbn [List.length]; lia|]);
    (destruct r as [p|]; [destruct D as (b & rest & -> & D); exists b; eexists; split; [reflexivity|];
       intros e He; apply in_app_or in He; destruct He as [He|[<-|[]]]; [exact (D e He)|rewrite Ea; exact Logic.I]
     | destruct D as [D1 D2]; split; [rewrite app_length; cbn [List.length]; lia|];
       intros e He; apply in_app_or in He; destruct He as [He|[<-|[]]]; [exact (D2 e He)|rewrite Ea; exact Logic.I]]).
  injection E as <- <-. exists [(object_file h t, Done b)]. split; [reflexivity|]. split; [intros e [<-|[]]; left; reflexivity|].
  split; [cbn [List.length]; lia|]. exists b, []. rewrite Hp. split; [reflexivity|intros e []].
Qed.
Lemma attempts_log : forall srv h l n s s' r, is_hash h -> attempts srv n h l s = (s', r) ->
  exists new, o_log s' = new ++ o_log s /\ (forall e, In e new -> In (fst e) (map (object_file h) l)) /\
    (List.length new <= n * List.length l)%nat /\
    match r with
    | None => List.length new = (n * List.length l)%nat /\ forall e, In e new -> failed e
    | Some p => exists b rest, new = (local p, Done b) :: rest /\ forall e, In e rest -> failed e
    end.
Proof.
  intros srv h l n. induction n as [|n IH]; intros s s' r Hh E; cbn [attempts] in E.
  { injection E as <- <-. exists []. split; [reflexivity|]. split; [intros e []|]. split; [cbn; lia|]. split; [reflexivity|intros e []]. }
  destruct (try_types srv h l s) as [s1 [p|]] eqn:Et; destruct (try_log _ _ _ _ _ _ Hh Et) as (new1 & A1 & B1 & C1 & D1).
  - injection E as <- <-. exists new1. split; [exact A1|]. split; [exact B1|]. split; [lia|exact D1].
  - destruct (IH _ _ _ Hh E) as (new & A & B & C & D). exists (new ++ new1). destruct D1 as [D1 D1'].
    split; [rewrite A, A1, List.app_assoc; reflexivity|]. split; [intros e He; apply in_app_or in He; destruct He; auto|].
    split; [rewrite app_length; lia|]. destruct r as [p|].
    + destruct D as (b & rest & -> & D). exists b. eexists. split; [reflexivity|]. intros e He. apply in_app_or in He. destruct He; auto.
    + destruct D as [D D']. split; [rewrite app_length; lia|]. intros e He. apply in_app_or in He. destruct He; auto.
Qed.
Theorem C164_bounded : forall srv s h t, is_hash h -> bounded_call srv s h t.
Proof.
  intros srv s h t Hh s' r E. unfold get_object in E. destruct (aget h (o_tab s)) as [p|] eqn:Ea.
  - injection E as <- <-. exists []. split; [reflexivity|]. split; [intros e []|]. split; [cbn; lia|]. left. split; [reflexivity|reflexivity].
  - destruct (attempts_log _ _ _ _ _ _ _ Hh E) as (new & A & B & C & D). exists new.
    assert (El : List.length (candidates h t) = List.length (types_of t)) by (unfold candidates; rewrite map_length; destruct t; reflexivity).
    rewrite El. split; [exact A|]. split; [unfold candidates; destruct t; exact B|]. split; [exact C|]. destruct r; [right; exact D|exact D].
Qed.

(** An object that a call gave is given again by every later call with the same hash, and nothing is asked for it. *)
Lemma get_keeps : forall srv h t s h' p, aget h' (o_tab s) = Some p -> aget h' (o_tab (fst (get_object srv h t s))) = Some p.
Proof.
  intros srv h t s h' p H. unfold get_object. destruct (aget h (o_tab s)) as [q|] eqn:E; [exact H|].
  assert (HT : forall l s, aget h' (o_tab s) = Some p -> aget h (o_tab s) = None -> let '(s1, r) := try_types srv h l s in
     aget h' (o_tab s1) = Some p /\ (r = None -> aget h (o_tab s1) = None)).
  { induction l as [|x l IH]; intros s0 H0 N0; cbn [try_types]; [auto|]. unfold check_for, fetch.
    destruct (srv _ _) as [|w|b]; cbn [o_tab o_fs o_log].
    - specialize (IH {| o_fs := o_fs s0; o_tab := o_tab s0; o_log := (local (append (obj_path h) (ext x)), NoOpen) :: o_log s0 |} H0 N0).
      exact IH.
    - specialize (IH {| o_fs := put_fs (local (append (obj_path h) (ext x))) None (o_fs s0); o_tab := o_tab s0; o_log := (local (append (obj_path h) (ext x)), Broke w) :: o_log s0 |} H0 N0).
      exact IH.
    - split; [|discriminate]. cbn [aget]. destruct (String.eqb_spec h' h) as [->|]; [congruence|exact H0]. }
  assert (HA : forall n s, aget h' (o_tab s) = Some p -> aget h (o_tab s) = None -> aget h' (o_tab (fst (attempts srv n h (types_of t) s))) = Some p).
  { induction n as [|n IH]; intros s0 H0 N0; cbn [attempts]; [exact H0|]. specialize (HT (types_of t) s0 H0 N0).
    destruct (try_types srv h (types_of t) s0) as [s1 [q|]]; destruct HT as [T1 T2]; [exact T1|]. apply IH; [exact T1|apply T2; reflexivity]. }
  exact (HA 3%nat s H E).
Qed.
Lemma get_known : forall srv h t s s' p, get_object srv h t s = (s', Some p) -> aget h (o_tab s') = Some p.
Proof.
  intros srv h t s s' p E. unfold get_object in E. destruct (aget h (o_tab s)) as [q|] eqn:Ea; [injection E as <- <-; exact Ea|].
  assert (HT : forall l s s1 q, try_types srv h l s = (s1, Some q) -> aget h (o_tab s1) = Some q).
  { induction l as [|x l IH]; intros s0 s1 q E0; cbn [try_types] in E0; [discriminate|]. unfold check_for, fetch in E0.
    destruct (srv _ _) as [|w|b]; [exact (IH _ _ _ E0)|exact (IH _ _ _ E0)|]. injection E0 as <- <-. cbn [o_tab aget]. rewrite String.eqb_refl. reflexivity. }
  assert (HA : forall n s s1 q, attempts srv n h (types_of t) s = (s1, Some q) -> aget h (o_tab s1) = Some q).
  { induction n as [|n IH]; intros s0 s1 q E0; cbn [attempts] in E0; [discriminate|].
    destruct (try_types srv h (types_of t) s0) as [s2 [q'|]] eqn:Et; [injection E0 as <- <-; exact (HT _ _ _ _ Et)|exact (IH _ _ _ E0)]. }
  exact (HA _ _ _ _ E).
Qed.
Theorem C164_once : forall srv s h t s1 p calls t', get_object srv h t s = (s1, Some p) ->
  let s2 := fst (gets srv calls s1) in get_object srv h t' s2 = (s2, Some p).
Proof.
  intros srv s h t s1 p calls t' E. cbn zeta. apply get_known in E. revert s1 E. induction calls as [|[h1 t1] calls IH]; intros s1 E; cbn [gets].
  - cbn [fst]. unfold get_object. rewrite E. reflexivity.
  - pose proof (get_keeps srv h1 t1 s1 h p E) as K. destruct (get_object srv h1 t1 s1) as [s2 r]. cbn [fst] in K.
    specialize (IH s2 K). destruct (gets srv calls s2) as [s3 rs]. exact IH.
Qed.
(** It is of the type that was asked for, if the hash was never asked for with another. *)
Definition C164_type_statement : Prop :=
  forall srv fs0 calls s rs, (forall h t, In (h, t) calls -> is_hash h) -> gets srv calls (fresh fs0) = (s, rs) ->
  forall i h t p, nth_error calls i = Some (h, Some t) -> nth_error rs i = Some (Some p) -> local p = object_file h t.
Lemma get_type : forall srv h t s s' p, is_hash h -> get_object srv h (Some t) s = (s', Some p) -> aget h (o_tab s) = None -> local p = object_file h t.
Proof.
  intros srv h t s s' p Hh E N. destruct (C164_bounded srv s h (Some t) Hh _ _ E) as (new & _ & B & _ & [[_ D]|(b & rest & -> & _)]); [congruence|].
  destruct (B _ (or_introl eq_refl)) as [E'|[]]. symmetry. exact E'.
Qed.
Lemma get_others : forall srv h t s h', h' <> h -> aget h' (o_tab (fst (get_object srv h t s))) = aget h' (o_tab s).
Proof.
  intros srv h t s h' Hne. unfold get_object. destruct (aget h (o_tab s)); [reflexivity|].
  assert (HT : forall l s, aget h' (o_tab (fst (try_types srv h l s))) = aget h' (o_tab s)).
  { induction l as [|x l IH]; intros s0; cbn [try_types]; [reflexivity|]. unfold check_for, fetch.
    destruct (srv _ _) as [|w|b]; [exact (IH _)|exact (IH _)|]. cbn [fst o_tab aget]. destruct (String.eqb_spec h' h); [contradiction|reflexivity]. }
  generalize 3%nat. intros n. revert s. induction n as [|n IH]; intros s; cbn [attempts]; [reflexivity|]. specialize (HT (types_of t) s).
  destruct (try_types srv h (types_of t) s) as [s1 [q|]]; [exact HT|]. rewrite IH. exact HT.
Qed.
Theorem C164_type_partial : forall srv fs0 calls s rs, (forall h t, In (h, t) calls -> is_hash h) ->
  (forall h t t', In (h, t) calls -> In (h, t') calls -> t = t') -> gets srv calls (fresh fs0) = (s, rs) ->
  forall i h t p, nth_error calls i = Some (h, Some t) -> nth_error rs i = Some (Some p) -> local p = object_file h t.
Proof.
  intros srv fs0 calls s rs Hh Ht E.
  assert (G : forall l s0, (forall h t, In (h, t) l -> In (h, t) calls) ->
    (forall h t p, In (h, Some t) calls -> aget h (o_tab s0) = Some p -> local p = object_file h t) ->
    forall i h t p, nth_error l i = Some (h, Some t) -> nth_error (snd (gets srv l s0)) i = Some (Some p) -> local p = object_file h t).
  { induction l as [|[h1 t1] l IH]; intros s0 Hl Inv [|i] h t p E1 E2; cbn in E1; try discriminate.
    - injection E1 as -> ->. cbn [gets] in E2. destruct (get_object srv h (Some t) s0) as [s1 r] eqn:Eg. destruct (gets srv l s1) as [s2 rs2]. cbn in E2. injection E2 as ->.
      destruct (aget h (o_tab s0)) as [q|] eqn:Ea; [|apply (get_type srv h t s0 s1 p); [exact (Hh _ _ (Hl _ _ (or_introl eq_refl)))|exact Eg|exact Ea]].
      unfold get_object in Eg. rewrite Ea in Eg. injection Eg as <- <-. exact (Inv _ _ _ (Hl _ _ (or_introl eq_refl)) Ea).
    - cbn [gets] in E2. destruct (get_object srv h1 t1 s0) as [s1 r] eqn:Eg. specialize (IH s1 (fun x y Hin => Hl x y (or_intror Hin))).
      destruct (gets srv l s1) as [s2 rs2]. cbn in E2. cbn [snd] in IH. refine (IH _ i h t p E1 E2).
      intros h' t' p' Hin' Ha'. pose proof (get_others srv h1 t1 s0 h') as Ho. rewrite Eg in Ho. cbn [fst] in Ho.
      destruct (String.eqb_spec h' h1) as [->|Hne]; [|rewrite (Ho Hne) in Ha'; exact (Inv _ _ _ Hin' Ha')].
      assert (t1 = Some t') by (apply (Ht h1); [apply Hl; left; reflexivity|exact Hin']). subst t1.
      destruct (aget h1 (o_tab s0)) as [q|] eqn:Ea.
      + unfold get_object in Eg. rewrite Ea in Eg. injection Eg as <- _. exact (Inv _ _ _ Hin' Ha').
      + destruct r as [q|]; [|].
        * pose proof (get_known _ _ _ _ _ _ Eg) as K. assert (q = p') by congruence. subst q. exact (get_type srv h1 t' s0 s1 p' (Hh _ _ Hin') Eg Ea).
        * exfalso. clear - Eg Ha' Ea. unfold get_object in Eg. rewrite Ea in Eg.
          assert (HT : forall l s s1, aget h1 (o_tab s) = None -> try_types srv h1 l s = (s1, None) -> aget h1 (o_tab s1) = None).
          { induction l as [|x l IH]; intros a b N E0; cbn [try_types] in E0; [injection E0 as <-; exact N|]. unfold check_for, fetch in E0.
            destruct (srv _ _) as [|w|bb]; [exact (IH _ _ (N : aget h1 (o_tab {| o_fs := _; o_tab := o_tab a; o_log := _ |}) = None) E0)|exact (IH _ _ (N : aget h1 (o_tab {| o_fs := _; o_tab := o_tab a; o_log := _ |}) = None) E0)|discriminate]. }
          revert s0 Ea Eg. generalize 3%nat. induction n as [|n IH]; intros s0 Ea Eg; cbn [attempts] in Eg; [injection Eg as <-; congruence|].
          destruct (try_types srv h1 (types_of (Some t')) s0) as [s3 [q|]] eqn:Et; [discriminate|]. exact (IH s3 (HT _ _ _ Ea Et) Eg). }
  specialize (G calls (fresh fs0) (fun h t Hin => Hin)). rewrite E in G. cbn [snd] in G. apply G. cbn [fresh o_tab aget]. discriminate.
Qed.
(** The table of objects does not know types: after the commit, a file of that hash is "found". *)
Theorem C164_type_refuted : ~ C164_type_statement.
Proof.
  intros H. set (calls := [(h0, Some TCommit); (h0, Some TFile)]). set (srv := fun (_ : nat) (_ : string) => Done "x").
  specialize (H srv (fun _ => None) calls (fst (gets srv calls (fresh (fun _ => None)))) (snd (gets srv calls (fresh (fun _ => None))))).
  assert (E : local (append (obj_path h0) (ext TCommit)) = object_file h0 TFile).
  { apply (H (fun h t Hin => match Hin with or_introl e => ltac:(injection e as <- _; reflexivity) | or_intror (or_introl e) => ltac:(injection e as <- _; reflexivity) | or_intror (or_intror f) => match f with end end))
      with (i := 1%nat); [destruct (gets _ _ _); reflexivity|reflexivity|vm_compute; reflexivity]. }
  vm_compute in E. discriminate.
Qed.

(** ** The hypotheses are met *)
Definition srv0 (n : nat) (p : string) : answer :=
  if String.eqb p (object_file h0 TTree) then match n with O => Broke "par" | _ => Done "tree" end else Broke "404".
Example C163_case : is_hash h0 /\ no_longer srv0 (fun _ => None) /\
  snd (gets srv0 [(h0, Some TTree)] (fresh (fun _ => None))) = [Some (append (obj_path h0) ".dirtree")].
Proof. split; [reflexivity|]. split; [intros f old n b H; discriminate|vm_compute; reflexivity]. Qed.
(** With the type unknown the tree is found at the second of four extensions; a missing object costs twelve requests. *)
Example C164_case : List.length (o_log (fst (get_object srv0 h0 None (fresh (fun _ => None))))) = 2%nat /\
  snd (get_object srv0 h0 None (fresh (fun _ => None))) <> None /\
  List.length (o_log (fst (get_object (fun _ _ => Broke "") h0 None (fresh (fun _ => None))))) = 12%nat.
Proof. split; [vm_compute; reflexivity|]. split; [vm_compute; discriminate|vm_compute; reflexivity]. Qed.

Print Assumptions C163_partial.
Print Assumptions C163_refuted.
Print Assumptions C164_bounded.
Print Assumptions C164_once.
Print Assumptions C164_type_partial.
Print Assumptions C164_type_refuted.
