(** C197: the description of the build survives its conversion. *)
From Coq Require Import Ascii Sorting.Sorted.
From Verif Require Import Base Json TufModel GenModel GenProofs XmlModel XmlSpec.

(** The full property: different documents are converted to different values. *)
Definition C197_statement : Prop :=
  forall a b j, names_ok a -> names_ok b -> tree_json (S MAX_DEPTH) a = Ok j -> tree_json (S MAX_DEPTH) b = Ok j -> a = b.

(** ** Sorting *)
Definition le_name (x y : string * tree) : Prop := str_ltb (fst y) (fst x) = false.
Lemma le_trans x y z : le_name x y -> le_name y z -> le_name x z.
Proof.
  unfold le_name. intros A B. destruct (str_ltb (fst z) (fst x)) eqn:E; [|reflexivity].
  destruct (String.eqb_spec (fst x) (fst y)) as [Q | N]; [congruence|].
  assert (N' : fst y <> fst x) by congruence. pose proof (str_ltb_total _ _ N' A) as L. rewrite (str_ltb_trans _ _ _ E L) in B. discriminate.
Qed.
Lemma le_antisym x y : le_name x y -> le_name y x -> fst x = fst y.
Proof.
  unfold le_name. intros A B. destruct (String.eqb_spec (fst x) (fst y)) as [Q | N]; [exact Q|]. rewrite (str_ltb_total _ _ N B) in A. discriminate.
Qed.
Lemma in_ins x l y : In y (ins x l) <-> y = x \/ In y l.
Proof.
  induction l as [|z l IH]; cbn [ins]; [cbn; intuition|]. destruct (str_ltb (fst z) (fst x)); cbn [In]; [rewrite IH|]; cbn [In]; intuition.
Qed.
Lemma ins_sorted x l : StronglySorted le_name l -> StronglySorted le_name (ins x l).
Proof.
  induction 1 as [|y l S IH F]; cbn [ins]; [constructor; constructor|]. destruct (str_ltb (fst y) (fst x)) eqn:E.
  - constructor; [exact IH|]. apply Forall_forall. intros z Iz. apply in_ins in Iz. destruct Iz as [-> | Iz].
    + unfold le_name. destruct (str_ltb (fst x) (fst y)) eqn:E2; [|reflexivity]. pose proof (str_ltb_trans _ _ _ E E2) as X. rewrite str_ltb_irr in X. discriminate.
    + rewrite Forall_forall in F. now apply F.
  - constructor; [now constructor|]. constructor; [exact E|]. apply Forall_forall. intros z Iz. rewrite Forall_forall in F. apply (le_trans x y z); [exact E|now apply F].
Qed.
Lemma ordered_sorted l : StronglySorted le_name (ordered l).
Proof. induction l as [|x l IH]; [constructor|]. cbn. now apply ins_sorted. Qed.
Lemma named_ins n x l : named n (ins x l) = named n (x :: l).
Proof.
  destruct x as [k t]. induction l as [|[k' t'] l IH]; [reflexivity|]. cbn [ins fst]. destruct (str_ltb k' k) eqn:E; [|reflexivity].
  cbn [named] in *. rewrite IH. destruct (String.eqb_spec k' n) as [-> | N]; [|reflexivity].
  destruct (String.eqb_spec k n) as [-> | N2]; [|reflexivity]. rewrite str_ltb_irr in E. discriminate.
Qed.
Lemma named_ordered n l : named n (ordered l) = named n l.
Proof. induction l as [|[k t] l IH]; [reflexivity|]. change (ordered ((k, t) :: l)) with (ins (k, t) (ordered l)). rewrite named_ins. cbn [named]. now rewrite IH. Qed.
Lemma in_ordered l x : In x (ordered l) <-> In x l.
Proof. induction l as [|y l IH]; [reflexivity|]. change (ordered (y :: l)) with (ins y (ordered l)). rewrite in_ins, IH. cbn [In]. intuition. Qed.
Lemma named_app n a b : named n (a ++ b) = named n a ++ named n b.
Proof. induction a as [|[k t] a IH]; [reflexivity|]. cbn [List.app named]. rewrite IH. now destruct (String.eqb k n). Qed.
Lemma named_none n l : (forall t, ~ In (n, t) l) -> named n l = [].
Proof.
  induction l as [|[k t] l IH]; intros H; [reflexivity|]. cbn [named]. destruct (String.eqb_spec k n) as [-> | _]; [exfalso; apply (H t); now left|].
  apply IH. intros u I1. apply (H u). now right.
Qed.
Lemma named_in n l t : In t (named n l) <-> In (n, t) l.
Proof.
  induction l as [|[k u] l IH]; [reflexivity|]. cbn [named In]. destruct (String.eqb_spec k n) as [-> | N].
  - cbn [In]. rewrite IH. split; intros [H | H]; auto; left; congruence.
  - rewrite IH. split; [auto|]. intros [H | H]; [congruence|exact H].
Qed.

(** ** The loop *)
Definition attrs_of (l : list (string * tree)) : list (string * string) :=
  map (fun a => (fst a, t_data (snd a))) (List.concat (map t_kids (named "<xmlattr>" l))).
Definition attr_json (v : option string) : option json := match v with Some s => Some (JStr s) | None => None end.

Lemma add_attrs_at l : forall out a, aget (append "@" a) (add_attrs out l) =
  match aget a (rev (map (fun x => (fst x, t_data (snd x))) l)) with Some v => Some (JStr v) | None => aget (append "@" a) out end.
Proof.
  assert (G : forall (q : list (string * string)) k v, aget k (q ++ [v]) = match aget k q with Some x => Some x | None => aget k [v] end).
  { induction q as [|[k' v'] l' IH]; intros k v; [reflexivity|]. cbn [List.app aget]. destruct (String.eqb k k'); [reflexivity|apply IH]. }
  induction l as [|[k t] l IH]; intros out a; [reflexivity|]. unfold add_attrs in *. cbn [fold_left map rev fst snd]. rewrite IH, G. cbn [aget].
  destruct (aget a (rev (map (fun x => (fst x, t_data (snd x))) l))); [reflexivity|]. destruct (String.eqb_spec a k) as [-> | N].
  - apply aget_oput.
  - apply aget_oput_other. cbn. congruence.
Qed.
Lemma add_attrs_other l : forall out k, (forall s, k <> String "@" s) -> aget k (add_attrs out l) = aget k out.
Proof.
  induction l as [|[a t] l IH]; intros out k H; [reflexivity|]. unfold add_attrs in *. cbn [fold_left]. rewrite IH by exact H. apply aget_oput_other. apply H.
Qed.
Lemma aget_app_s (l m : list (string * string)) k : aget k (l ++ m) = match aget k l with Some x => Some x | None => aget k m end.
Proof. induction l as [|[k' v'] l' IH]; [reflexivity|]. cbn [List.app aget]. destruct (String.eqb k k'); [reflexivity|apply IH]. Qed.
Lemma add_sub_same d k l : aget k d = None -> aget k (add_sub d k l) = none_one_many l.
Proof. intros N. destruct l as [|x [|y l]]; cbn [add_sub none_one_many]; [exact N|apply aget_oput|apply aget_oput]. Qed.
Lemma add_sub_other d k l k' : k' <> k -> aget k' (add_sub d k l) = aget k' d.
Proof. intros N. destruct l as [|x [|y l]]; cbn [add_sub]; [reflexivity| |]; now apply aget_oput_other. Qed.

Definition converts (conv : tree -> res json) (ts : list tree) (js : list json) : Prop := Forall2 (fun t j => conv t = Ok j) ts js.

(** What is known after the children [p]: [key] is the last name, and its children are in [lst]. *)
Record inv (conv : tree -> res json) (p : list (string * tree)) (out : list (string * json)) (key : string) (lst : list json) : Prop := {
  i_attr : forall a, aget (append "@" a) out = attr_json (aget a (rev (attrs_of p)));
  i_done : forall n, ordinary n -> n <> key -> exists js, converts conv (named n p) js /\ aget n out = none_one_many js;
  i_cur : key <> "" -> converts conv (named key p) lst /\ aget key out = None /\ ordinary key /\ exists t, In (key, t) p;
  i_fresh : key = "" -> lst = [];
  i_text : forall s, aget (String "#" s) out = None;
  i_last : forall k t, In (k, t) p -> k <> "<xmlattr>" -> key <> "" /\ str_ltb key k = false
}.

Lemma attrs_of_app a b : attrs_of (a ++ b) = attrs_of a ++ attrs_of b.
Proof. unfold attrs_of. rewrite named_app, map_app, List.concat_app, map_app. reflexivity. Qed.

Lemma collect_inv conv l : forall p out key lst r, StronglySorted le_name (p ++ l) -> (forall k c, In (k, c) l -> k = "<xmlattr>" \/ ordinary k) ->
  inv conv p out key lst -> collect conv out key lst l = Ok r -> inv conv (p ++ l) (fst (fst r)) (snd (fst r)) (snd r).
Proof.
  induction l as [|[val sub] l IH]; intros p out key lst r S N V C; cbn [collect] in C.
  - injection C as <-. now rewrite app_nil_r.
  - assert (S' : StronglySorted le_name ((p ++ [(val, sub)]) ++ l)) by (rewrite <- app_assoc; exact S).
    assert (N' : forall k c, In (k, c) l -> k = "<xmlattr>" \/ ordinary k) by (intros k c I1; apply (N k c); now right).
    assert (LE : forall k t, In (k, t) p -> str_ltb val k = false).
    { clear - S. intros k t I1. induction p as [|x p IHp]; [destruct I1|]. inversion S as [|? ? S1 F]; subst. destruct I1 as [-> | I1]; [|now apply IHp].
      rewrite Forall_forall in F. apply (F (val, sub)). apply in_app_iff. right. now left. }
    replace (p ++ (val, sub) :: l) with ((p ++ [(val, sub)]) ++ l) by (now rewrite <- app_assoc).
    destruct (String.eqb_spec val "<xmlattr>") as [-> | NA].
    + apply (IH _ _ _ _ _ S' N') in C; [exact C|]. destruct V as [V1 V2 V3 V4 V5 V6].
      assert (NM : forall n, n <> "<xmlattr>" -> named n (p ++ [("<xmlattr>", sub)]) = named n p).
      { intros n H. rewrite named_app. cbn [named]. destruct (String.eqb_spec "<xmlattr>" n) as [E | _]; [congruence|]. apply app_nil_r. }
      split.
      * intros a. rewrite add_attrs_at. rewrite attrs_of_app, rev_app_distr, aget_app_s.
        assert (E : attrs_of [("<xmlattr>", sub)] = map (fun x => (fst x, t_data (snd x))) (t_kids sub)) by (unfold attrs_of; cbn; now rewrite app_nil_r).
        rewrite E. destruct (aget a (rev (map (fun x => (fst x, t_data (snd x))) (t_kids sub)))); [reflexivity|apply V1].
      * intros n O K. destruct (V2 n O K) as (js & A & B). exists js. destruct O as (O1 & O2 & O3 & O4). rewrite NM by exact O2. split; [exact A|].
        rewrite add_attrs_other by exact O3. exact B.
      * intros K. destruct (V3 K) as (A & B & O & t & T). pose proof O as (O1 & O2 & O3 & O4). rewrite NM by exact O2. split; [exact A|]. split; [rewrite add_attrs_other by exact O3; exact B|].
        split; [exact O|]. exists t. apply in_app_iff. now left.
      * exact V4.
      * intros s. rewrite add_attrs_other by (intros; discriminate). apply V5.
      * intros k t I1 NK. apply in_app_iff in I1. destruct I1 as [I1 | [I1 | []]]; [now apply (V6 k t)|congruence].
    + destruct (conv sub) as [j|] eqn:CJ; [|discriminate]. cbn [bind] in C. apply (IH _ _ _ _ _ S' N') in C; [exact C|]. clear IH C.
      assert (O : ordinary val) by (destruct (N val sub (or_introl eq_refl)) as [E | O]; [congruence|exact O]). pose proof O as (O1 & O2 & O3 & O4).
      destruct V as [V1 V2 V3 V4 V5 V6].
      assert (NM : forall n, n <> val -> named n (p ++ [(val, sub)]) = named n p).
      { intros n H. rewrite named_app. cbn [named]. destruct (String.eqb_spec val n) as [E | _]; [congruence|]. apply app_nil_r. }
      assert (NV : named val (p ++ [(val, sub)]) = named val p ++ [sub]) by (rewrite named_app; cbn [named]; now rewrite String.eqb_refl).
      assert (AT : attrs_of (p ++ [(val, sub)]) = attrs_of p).
      { rewrite attrs_of_app. unfold attrs_of at 2. cbn [named]. rewrite (proj2 (String.eqb_neq _ _) NA). cbn. apply app_nil_r. }
      destruct (String.eqb_spec key "") as [-> | KN]; [|destruct (String.eqb_spec key val) as [-> | KV]].
      * (* the first name *)
        rewrite (V4 eq_refl). cbn [List.app].
        assert (EP : forall n, n <> "<xmlattr>" -> named n p = []).
        { intros n H. apply named_none. intros t I1. destruct (V6 n t I1 H) as [X _]. congruence. }
        split.
        -- intros a. rewrite AT. apply V1.
        -- intros n ON K. destruct (V2 n ON) as (js & A & B); [apply ON|]. exists js. rewrite NM by exact K. auto.
        -- intros _. rewrite NV, (EP val NA). split; [constructor; [exact CJ|constructor]|]. split; [|split; [exact O|exists sub; apply in_app_iff; right; now left]].
           destruct (V2 val O O1) as (js & A & B). rewrite (EP val NA) in A. inversion A; subst. exact B.
        -- congruence.
        -- exact V5.
        -- intros k t I1 NK. split; [exact O1|]. apply in_app_iff in I1. destruct I1 as [I1 | [I1 | []]]; [apply (LE k t I1)|]. injection I1 as -> ->. apply str_ltb_irr.
      * (* the same name again *)
        destruct (V3 KN) as (A & B & _ & t0 & T0). split.
        -- intros a. rewrite AT. apply V1.
        -- intros n ON K. destruct (V2 n ON K) as (js & A' & B'). exists js. rewrite NM by exact K. auto.
        -- intros _. rewrite NV. split; [apply Forall2_app; [exact A|constructor; [exact CJ|constructor]]|]. split; [exact B|]. split; [exact O|]. exists sub. apply in_app_iff. right. now left.
        -- congruence.
        -- exact V5.
        -- intros k t I1 NK. split; [exact O1|]. apply in_app_iff in I1. destruct I1 as [I1 | [I1 | []]]; [apply (LE k t I1)|]. injection I1 as -> ->. apply str_ltb_irr.
      * (* another name *)
        destruct (V3 KN) as (A & B & OK & t0 & T0). pose proof OK as (K1 & K2 & K3 & K4).
        assert (EV : named val p = []).
        { apply named_none. intros t I1. destruct (V6 val t I1 NA) as [_ L]. pose proof (LE key t0 T0) as L2. apply KV.
          exact (eq_sym (le_antisym (val, t) (key, t0) L L2)). }
        cbn [List.app]. split.
        -- intros a. rewrite AT, add_sub_other; [apply V1|]. intros E. symmetry in E. exact (K3 a E).
        -- intros n ON K. rewrite NM by exact K. destruct (String.eqb_spec n key) as [-> | NK].
           ++ exists lst. split; [exact A|]. now apply add_sub_same.
           ++ destruct (V2 n ON NK) as (js & A' & B'). exists js. split; [exact A'|]. rewrite add_sub_other by exact NK. exact B'.
        -- intros _. rewrite NV, EV. split; [constructor; [exact CJ|constructor]|]. split; [|split; [exact O|exists sub; apply in_app_iff; right; now left]].
           rewrite add_sub_other by congruence. destruct (V2 val O) as (js & A' & B'); [congruence|]. rewrite EV in A'. inversion A'; subst. exact B'.
        -- congruence.
        -- intros s. rewrite add_sub_other; [apply V5|]. intros E. symmetry in E. exact (K4 s E).
        -- intros k t I1 NK. split; [exact O1|]. apply in_app_iff in I1. destruct I1 as [I1 | [I1 | []]]; [apply (LE k t I1)|]. injection I1 as -> ->. apply str_ltb_irr.
Qed.

Lemma inv_start conv : inv conv [] [] "" [].
Proof. split; try (intros; reflexivity); try congruence; try contradiction. intros n _ _. exists []. split; [constructor|reflexivity]. Qed.

(** An element without children or attributes becomes its text, or null without a text.  Any other becomes an object: under "@a" the
    attribute a; under a name the converted child of that name, or the array of the converted children if there are several, in the
    order of the document; under "#text" its text, if it has one. *)
Theorem C197_exact_partial :
  forall n t j, names_ok t -> tree_json (S n) t = Ok j ->
    (t_kids t = [] -> j = if String.eqb (t_data t) "" then JNull else JStr (t_data t)) /\
    (t_kids t <> [] -> exists m, j = match m with [] => JNull | _ => JObj m end /\
       (forall a, aget (append "@" a) m = match aget a (rev (attributes t)) with Some v => Some (JStr v) | None => None end) /\
       (forall k, ordinary k -> exists js, Forall2 (fun c x => tree_json n c = Ok x) (named k (t_kids t)) js /\ aget k m = none_one_many js) /\
       aget "#text" m = if String.eqb (t_data t) "" then None else Some (JStr (t_data t))).
Proof.
  intros n t j NO H. cbn [tree_json] in H. destruct (collect (tree_json n) [] "" [] (ordered (t_kids t))) as [[[out key] lst]|] eqn:C; [|discriminate]. cbn [bind] in H.
  split.
  - intros K. rewrite K in *. cbn in C. injection C as <- <- <-. cbn in H. destruct (String.eqb (t_data t) ""); injection H as <-; reflexivity.
  - intros K. assert (V : inv (tree_json n) (ordered (t_kids t)) out key lst).
    { apply (collect_inv (tree_json n) (ordered (t_kids t)) [] [] "" [] (out, key, lst)) in C; [exact C|apply ordered_sorted| |apply inv_start].
      intros k c I1. apply (NO k c). now apply in_ordered. }
    destruct V as [V1 V2 V3 V4 V5 V6]. set (o := if String.eqb key "" then out else add_sub out key lst) in *.
    assert (A1 : forall a, aget (append "@" a) o = attr_json (aget a (rev (attributes t)))).
    { intros a. replace (attributes t) with (attrs_of (ordered (t_kids t))) by (unfold attrs_of, attributes; now rewrite named_ordered).
      unfold o. destruct (String.eqb_spec key "") as [E | E]; [apply V1|]. destruct (V3 E) as (_ & _ & (_ & _ & O3 & _) & _).
      rewrite add_sub_other; [apply V1|]. intros Q. symmetry in Q. exact (O3 a Q). }
    assert (A2 : forall k, ordinary k -> exists js, Forall2 (fun c x => tree_json n c = Ok x) (named k (t_kids t)) js /\ aget k o = none_one_many js).
    { intros k O. rewrite <- named_ordered. unfold o. destruct (String.eqb_spec key "") as [E | E]; [apply (V2 k O); rewrite E; apply O|].
      destruct (V3 E) as (X & Y & _). destruct (String.eqb_spec k key) as [-> | N].
      - exists lst. split; [exact X|now apply add_sub_same].
      - destruct (V2 k O N) as (js & P & Q). exists js. split; [exact P|]. now rewrite add_sub_other by exact N. }
    assert (A3 : aget "#text" o = None).
    { unfold o. destruct (String.eqb_spec key "") as [E | E]; [apply V5|]. destruct (V3 E) as (_ & _ & (_ & _ & _ & O4) & _).
      rewrite add_sub_other; [apply V5|]. intros Q. symmetry in Q. exact (O4 _ Q). }
    clearbody o. clear V1 V2 V3 V4 V5 V6 C. destruct (String.eqb (t_data t) "").
    + injection H as <-. exists o. split; [reflexivity|]. auto.
    + destruct (t_kids t) as [|x ks] eqn:KE; [congruence|]. injection H as <-. exists (oput "#text" (JStr (t_data t)) o).
      split; [destruct (oput "#text" (JStr (t_data t)) o); reflexivity|]. split; [|split].
      * intros a. rewrite aget_oput_other by (cbn; discriminate). apply A1.
      * intros k O. destruct (A2 k O) as (js & P & Q). exists js. split; [exact P|]. rewrite aget_oput_other; [exact Q|]. destruct O as (_ & _ & _ & O4). apply O4.
      * apply aget_oput.
Qed.

(** A document is converted exactly if its elements are nested at most [n] deep. *)
Lemma collect_ok conv l : forall out key lst, (exists r, collect conv out key lst l = Ok r) <-> (forall k c, In (k, c) l -> k <> "<xmlattr>" -> exists j, conv c = Ok j).
Proof.
  induction l as [|[val sub] l IH]; intros out key lst; cbn [collect]; [split; [intros _ k c []|eauto]|].
  destruct (String.eqb_spec val "<xmlattr>") as [-> | N].
  - rewrite IH. split; intros H k c I1 NK; [destruct I1 as [I1 | I1]; [congruence|now apply (H k c)]|apply (H k c); [now right|exact NK]].
  - destruct (conv sub) as [j|] eqn:CJ; cbn [bind].
    + rewrite IH. split; intros H k c I1 NK; [destruct I1 as [I1 | I1]; [injection I1 as <- <-; eauto|now apply (H k c)]|apply (H k c); [now right|exact NK]].
    + split; [intros (r & X); discriminate|]. intros H. destruct (H val sub (or_introl eq_refl) N) as (j & X). congruence.
Qed.
Theorem C197_depth_partial : forall n t, (exists j, tree_json n t = Ok j) <-> fits n t.
Proof.
  induction n as [|n IH]; intros t; [split; [intros (j & H); discriminate|intros H; inversion H]|].
  assert (E : (exists j, tree_json (S n) t = Ok j) <-> (exists r, collect (tree_json n) [] "" [] (ordered (t_kids t)) = Ok r)).
  { cbn [tree_json]. destruct (collect (tree_json n) [] "" [] (ordered (t_kids t))) as [[[out key] lst]|e]; cbn [bind].
    - split; [eauto|]. intros _. destruct (String.eqb (t_data t) ""); [eauto|]. destruct (t_kids t); eauto.
    - split; intros (x & H); discriminate. }
  rewrite E, collect_ok. split.
  - intros H. constructor. intros k c I1 NK. apply IH. apply (H k c); [now apply in_ordered|exact NK].
  - intros H k c I1 NK. inversion H as [? ? F]; subst. apply IH. apply (F k c); [now apply in_ordered|exact NK].
Qed.

(** The whole: a text is converted exactly if it can be read, has one node at the top and elements at most ten deep ... *)
Theorem C197_document_partial :
  forall doc, (exists j, xml2json doc = Ok j) <-> exists pt, doc = Some pt /\ (exists x, t_kids pt = [x]) /\ fits 11 pt.
Proof.
  intros [pt|]; cbn [xml2json]; [|split; [intros (j & H); discriminate|intros (pt & H & _); discriminate]].
  destruct (Nat.eqb_spec (List.length (t_kids pt)) 1) as [L | L].
  - change (S MAX_DEPTH) with 11%nat. rewrite C197_depth_partial. split.
    + intros F. exists pt. split; [reflexivity|]. split; [|exact F]. destruct (t_kids pt) as [|x [|y l]]; try discriminate. eauto.
    + intros (pt' & E & _ & F). congruence.
  - split; [intros (j & H); discriminate|]. intros (pt' & E & (x & X) & _). injection E as <-. rewrite X in L. now destruct L.
Qed.
(** ... so a remark in front of or behind the document makes it unreadable. *)
Theorem C197_remark :
  forall d text k doc, xml2json (Some (Tree d [("<xmlcomment>", Tree text []); (k, doc)])) = Throw EStd /\
                       xml2json (Some (Tree d [(k, doc); ("<xmlcomment>", Tree text [])])) = Throw EStd.
Proof. split; reflexivity. Qed.

Definition el (n : string) (l : list (string * tree)) : string * tree := (n, Tree "" l).
Definition txt (n s : string) : string * tree := (n, Tree s []).
Definition with_attr (n : string) (a : list (string * string)) (s : string) : string * tree :=
  (n, Tree s [("<xmlattr>", Tree "" (map (fun p => (fst p, Tree (snd p) [])) a))]).
Definition ab : tree := Tree "" [el "m" [txt "a" "1"; txt "b" "2"]].
Definition ba : tree := Tree "" [el "m" [txt "b" "2"; txt "a" "1"]].
Lemma m_ordinary : ordinary "m".
Proof. repeat split; try discriminate; intros s; discriminate. Qed.

(** The order of elements with different names is lost. *)
Theorem C197_refuted : ~ C197_statement.
Proof.
  intros S. assert (N : forall l, names_ok (Tree "" [el "m" l])).
  { intros l k c [I1 | []]. injection I1 as <- <-. right. exact m_ordinary. }
  assert (E : ab = ba) by (apply (S ab ba (JObj [("m", JObj [("a", JStr "1"); ("b", JStr "2")])])); [apply N|apply N|reflexivity|reflexivity]).
  discriminate.
Qed.

Definition manifest : tree := Tree "" [("manifest", Tree "" [
  with_attr "remote" [("name", "github"); ("fetch", "https://github.com")] ""; with_attr "default" [("remote", "github")] "text"; 
  with_attr "remote" [("name", "yocto")] ""; el "empty" []; txt "<xmlcomment>" "remark"])].
Example manifest_converted : xml2json (Some manifest) = Ok (JObj [("manifest", JObj [
  ("<xmlcomment>", JStr "remark");
  ("default", JObj [("#text", JStr "text"); ("@remote", JStr "github")]); ("empty", JNull);
  ("remote", JArr [JObj [("@fetch", JStr "https://github.com"); ("@name", JStr "github")]; JObj [("@name", JStr "yocto")]])])]).
Proof. reflexivity. Qed.
Example manifest_meets : names_ok manifest /\ (forall k c, In (k, c) (t_kids manifest) -> names_ok c) /\ fits 11 manifest.
Proof.
  assert (O : forall n, In n ["manifest"; "remote"; "default"; "empty"; "<xmlcomment>"] -> ordinary n).
  { intros n [<- | [<- | [<- | [<- | [<- | []]]]]]; repeat split; try discriminate; intros s; discriminate. }
  split; [|split].
  - intros k c [I1 | []]. injection I1 as <- <-. right. apply O. cbn. tauto.
  - intros k c [I1 | []]. injection I1 as <- <-. intros k c I1. right. apply O. cbn [t_kids In] in I1.
    repeat (destruct I1 as [I1 | I1]; [apply (f_equal fst) in I1; cbn [fst with_attr el txt] in I1; rewrite <- I1; cbn; tauto|]). destruct I1.
  - apply (C197_depth_partial 11). eexists. vm_compute. reflexivity.
Qed.
Fixpoint tower (n : nat) : tree := match n with O => Tree "" [] | S k => Tree "" [("e", tower k)] end.
Example ten_but_not_eleven : (exists j, xml2json (Some (tower 10)) = Ok j) /\ xml2json (Some (tower 11)) = Throw EStd.
Proof. split; [eexists; vm_compute; reflexivity|reflexivity]. Qed.

Print Assumptions C197_exact_partial.
Print Assumptions C197_depth_partial.
Print Assumptions C197_document_partial.
Print Assumptions C197_remark.
Print Assumptions C197_refuted.
