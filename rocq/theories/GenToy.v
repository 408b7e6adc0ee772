(** An environment that meets the assumptions on JsonCpp and the cryptography, with which examples can be computed: JSON in a prefix
    notation, digests and signatures that are check sums. *)
From Verif Require Import Base Json TufModel TufSpec MetaStore RepoModel RepoSpec GenModel GenSpec.

(** ** A notation for JSON *)
Definition special (c : ascii) : bool := Ascii.eqb c "." || Ascii.eqb c "\".
Fixpoint enc_str (s k : string) : string :=
  match s with
  | EmptyString => String "." k
  | String c r => if special c then String "\" (String c (enc_str r k)) else String c (enc_str r k)
  end.
Fixpoint dec_str (s : string) : option (string * string) :=
  match s with
  | EmptyString => None
  | String c r =>
      if Ascii.eqb c "." then Some (EmptyString, r)
      else if Ascii.eqb c "\" then
        match r with EmptyString => None | String c' r' => match dec_str r' with Some (x, k) => Some (String c' x, k) | None => None end end
      else match dec_str r with Some (x, k) => Some (String c x, k) | None => None end
  end.
Lemma dec_enc_str s : forall k, dec_str (enc_str s k) = Some (s, k).
Proof.
  induction s as [|c s IH]; intros k; [reflexivity|]. cbn [enc_str]. destruct (special c) eqn:H.
  - change (dec_str (String "\" (String c (enc_str s k)))) with (match dec_str (enc_str s k) with Some (x, k') => Some (String c x, k') | None => None end). now rewrite IH.
  - unfold special in H. apply orb_false_iff in H as (A & B). cbn [dec_str]. rewrite A, B, IH. reflexivity.
Qed.
Fixpoint enc_pos (p : positive) (k : string) : string :=
  match p with xH => String "e" k | xO p => String "0" (enc_pos p k) | xI p => String "1" (enc_pos p k) end.
Fixpoint dec_pos (s : string) : option (positive * string) :=
  match s with
  | EmptyString => None
  | String c r => if Ascii.eqb c "e" then Some (xH, r)
                  else match dec_pos r with Some (p, k) => Some (if Ascii.eqb c "0" then xO p else xI p, k) | None => None end
  end.
Lemma dec_enc_pos p : forall k, dec_pos (enc_pos p k) = Some (p, k).
Proof. induction p as [p IH|p IH|]; intros k; cbn [enc_pos dec_pos]; [| |reflexivity]; change (Ascii.eqb "1" "e") with false || change (Ascii.eqb "0" "e") with false; cbv iota; now rewrite IH. Qed.

Fixpoint enc (j : json) (k : string) : string :=
  match j with
  | JNull | JReal _ _ _ => String "n" k
  | JBool true => String "t" k
  | JBool false => String "f" k
  | JInt Z0 => String "z" k
  | JInt (Zpos p) => String "p" (enc_pos p k)
  | JInt (Zneg p) => String "m" (enc_pos p k)
  | JStr s => String "s" (enc_str s k)
  | JArr l => String "[" (fold_right enc (String "]" k) l)
  | JObj l => String "{" (fold_right (fun p r => String "," (enc_str (fst p) (enc (snd p) r))) (String "}" k) l)
  end.
Fixpoint dec (f : nat) (s : string) : option (json * string) :=
  match f with
  | O => None
  | S f =>
    match s with
    | EmptyString => None
    | String c r =>
        if Ascii.eqb c "n" then Some (JNull, r)
        else if Ascii.eqb c "t" then Some (JBool true, r)
        else if Ascii.eqb c "f" then Some (JBool false, r)
        else if Ascii.eqb c "z" then Some (JInt 0, r)
        else if Ascii.eqb c "p" then match dec_pos r with Some (p, k) => Some (JInt (Zpos p), k) | None => None end
        else if Ascii.eqb c "m" then match dec_pos r with Some (p, k) => Some (JInt (Zneg p), k) | None => None end
        else if Ascii.eqb c "s" then match dec_str r with Some (x, k) => Some (JStr x, k) | None => None end
        else if Ascii.eqb c "[" then match dec_arr f r with Some (l, k) => Some (JArr l, k) | None => None end
        else if Ascii.eqb c "{" then match dec_obj f r with Some (l, k) => Some (JObj l, k) | None => None end
        else None
    end
  end
with dec_arr (f : nat) (s : string) : option (list json * string) :=
  match f with
  | O => None
  | S f =>
    match s with
    | EmptyString => None
    | String c r =>
        if Ascii.eqb c "]" then Some ([], r)
        else match dec f s with
             | Some (j, k) => match dec_arr f k with Some (l, k') => Some (j :: l, k') | None => None end
             | None => None
             end
    end
  end
with dec_obj (f : nat) (s : string) : option (list (string * json) * string) :=
  match f with
  | O => None
  | S f =>
    match s with
    | EmptyString => None
    | String c r =>
        if Ascii.eqb c "}" then Some ([], r)
        else match dec_str r with
             | Some (n, k) =>
                 match dec f k with
                 | Some (j, k') => match dec_obj f k' with Some (l, k2) => Some ((n, j) :: l, k2) | None => None end
                 | None => None
                 end
             | None => None
             end
    end
  end.

Fixpoint need (j : json) : nat :=
  match j with
  | JArr l => S (fold_right (fun j n => S (need j + n)) 1%nat l)
  | JObj l => S (fold_right (fun p n => S (need (snd p) + n)) 1%nat l)
  | _ => 1%nat
  end.
Lemma json_nested (P : json -> Prop) : P JNull -> (forall b, P (JBool b)) -> (forall z, P (JInt z)) -> (forall n d t, P (JReal n d t)) -> (forall s, P (JStr s)) ->
  (forall l, Forall P l -> P (JArr l)) -> (forall l, Forall (fun p => P (snd p)) l -> P (JObj l)) -> forall j, P j.
Proof.
  intros A B C D F G H. fix IH 1. intros [|b|z|n d t|s|l|l].
  - exact A.
  - apply B.
  - apply C.
  - apply D.
  - apply F.
  - apply G. induction l as [|x l IHl]; constructor; [apply IH|exact IHl].
  - apply H. induction l as [|(n, x) l IHl]; constructor; [apply IH|exact IHl].
Qed.
Lemma enc_head j k : exists c r, enc j k = String c r /\ Ascii.eqb c "]" = false.
Proof. destruct j as [|[|]|[|p|p]|n d t|s|l|l]; cbn [enc]; do 2 eexists; (split; [reflexivity|reflexivity]). Qed.
Lemma dec_enc : forall j, plain j = true -> forall f k, (need j <= f)%nat -> dec f (enc j k) = Some (j, k).
Proof.
  apply (json_nested (fun j => plain j = true -> forall f k, (need j <= f)%nat -> dec f (enc j k) = Some (j, k))).
  - intros _ [|f] k H; [cbn in H; lia|reflexivity].
  - intros [|] _ [|f] k H; try (cbn in H; lia); reflexivity.
  - intros [|p|p] _ [|f] k H; try (cbn in H; lia); [reflexivity| |].
    + change (dec (S f) (enc (JInt (Zpos p)) k)) with (match dec_pos (enc_pos p k) with Some (p, k) => Some (JInt (Zpos p), k) | None => None end). now rewrite dec_enc_pos.
    + change (dec (S f) (enc (JInt (Zneg p)) k)) with (match dec_pos (enc_pos p k) with Some (p, k) => Some (JInt (Zneg p), k) | None => None end). now rewrite dec_enc_pos.
  - intros n d t H. discriminate.
  - intros s _ [|f] k H; [cbn in H; lia|].
    change (dec (S f) (enc (JStr s) k)) with (match dec_str (enc_str s k) with Some (x, k) => Some (JStr x, k) | None => None end). now rewrite dec_enc_str.
  - intros l IH P [|f] k H; [cbn in H; lia|]. cbn [plain] in P. cbn [need] in H. cbn [enc].
    change (dec (S f) (String "[" (fold_right enc (String "]" k) l))) with (match dec_arr f (fold_right enc (String "]" k) l) with Some (l, k) => Some (JArr l, k) | None => None end).
    assert (X : dec_arr f (fold_right enc (String "]" k) l) = Some (l, k)); [|now rewrite X].
    apply le_S_n in H. revert f H. induction IH as [|j l Hj _ IHl]; intros f H.
    + destruct f; [cbn in H; lia|reflexivity].
    + cbn [forallb] in P. apply andb_true_iff in P as (P1 & P2). cbn [fold_right] in H. destruct f as [|f]; [lia|].
      cbn [fold_right]. specialize (Hj P1 f (fold_right enc (String "]" k) l) ltac:(lia)). specialize (IHl P2 f ltac:(lia)).
      destruct (enc_head j (fold_right enc (String "]" k) l)) as (c & r & Ec & Nc). rewrite Ec in *. cbn [dec_arr]. now rewrite Nc, Hj, IHl.
  - intros l IH P [|f] k H; [cbn in H; lia|]. cbn [plain] in P. apply andb_true_iff in P as (_ & P). cbn [need] in H. cbn [enc].
    set (tail := fun l => fold_right (fun (p : string * json) r => String "," (enc_str (fst p) (enc (snd p) r))) (String "}" k) l).
    change (dec (S f) (String "{" (tail l))) with (match dec_obj f (tail l) with Some (l, k) => Some (JObj l, k) | None => None end).
    assert (X : dec_obj f (tail l) = Some (l, k)); [|now rewrite X].
    apply le_S_n in H. revert f H. induction IH as [|(n, j) l Hj _ IHl]; intros f H.
    + destruct f; [cbn in H; lia|reflexivity].
    + cbn [forallb fst snd] in P. apply andb_true_iff in P as (P1 & P2). apply andb_true_iff in P1 as (_ & P1). cbn [fold_right snd] in H. destruct f as [|f]; [lia|].
      cbn [snd] in Hj. specialize (Hj P1 f (tail l) ltac:(lia)). specialize (IHl P2 f ltac:(lia)).
      change (tail ((n, j) :: l)) with (String "," (enc_str n (enc j (tail l)))). cbn [dec_obj]. change (Ascii.eqb "," "}") with false. cbv iota. now rewrite dec_enc_str, Hj, IHl.
Qed.
Lemma enc_str_length s : forall k, (S (String.length k) <= String.length (enc_str s k))%nat.
Proof. induction s as [|c s IH]; intros k; cbn [enc_str String.length]; [lia|]. specialize (IH k). destruct (special c); cbn [String.length]; lia. Qed.
Lemma enc_pos_length p : forall k, (S (String.length k) <= String.length (enc_pos p k))%nat.
Proof. induction p as [p IH|p IH|]; intros k; cbn [enc_pos String.length]; try specialize (IH k); lia. Qed.
Lemma enc_length : forall j k, (need j + 1 + 2 * String.length k <= 2 * String.length (enc j k))%nat.
Proof.
  apply (json_nested (fun j => forall k, (need j + 1 + 2 * String.length k <= 2 * String.length (enc j k))%nat)); try (intros; cbn [need enc String.length]; lia).
  - intros [|] k; cbn [need enc String.length]; lia.
  - intros [|p|p] k; cbn [need enc String.length]; [lia| |]; pose proof (enc_pos_length p k); lia.
  - intros s k. cbn [need enc String.length]. pose proof (enc_str_length s k). lia.
  - intros l IH k. cbn [need enc String.length].
    assert (fold_right (fun j n => S (need j + n)) 1 l + 2 * String.length k <= 2 * String.length (fold_right enc (String "]" k) l))%nat; [|lia].
    induction IH as [|j l Hj _ IHl]; cbn [fold_right String.length]; [lia|]. specialize (Hj (fold_right enc (String "]" k) l)). lia.
  - intros l IH k. cbn [need enc String.length].
    set (tail := fun l => fold_right (fun (p : string * json) r => String "," (enc_str (fst p) (enc (snd p) r))) (String "}" k) l).
    change (fold_right (fun (p : string * json) r => String "," (enc_str (fst p) (enc (snd p) r))) (String "}" k) l) with (tail l).
    assert (fold_right (fun p n => S (need (snd p) + n)) 1 l + 2 * String.length k <= 2 * String.length (tail l))%nat; [|lia].
    induction IH as [|(n, j) l Hj _ IHl]; [unfold tail; cbn [fold_right String.length]; lia|].
    change (tail ((n, j) :: l)) with (String "," (enc_str n (enc j (tail l)))). cbn [fold_right snd String.length] in *. specialize (Hj (tail l)).
    pose proof (enc_str_length n (enc j (tail l))). lia.
Qed.
Definition toy_canon (j : json) : string := enc j "".
Definition toy_parse (s : string) : json := match dec (2 * String.length s) s with Some (j, EmptyString) => j | _ => JNull end.
Lemma toy_round j : plain j = true -> toy_parse (toy_canon j) = j.
Proof.
  intros P. unfold toy_parse, toy_canon. pose proof (enc_length j ""). cbn [String.length] in H. rewrite dec_enc by (auto; lia). reflexivity.
Qed.
(** no NUL *)
Fixpoint no_nul (s : string) : bool := match s with EmptyString => true | String c r => negb (Ascii.eqb c "000") && no_nul r end.
Lemma no_nul_cut s : no_nul s = true -> cut_nul s = s.
Proof. induction s as [|c s IH]; [reflexivity|]. cbn [no_nul cut_nul]. intros H. apply andb_true_iff in H as (A & B). apply negb_true_iff in A. rewrite A. now rewrite IH. Qed.
Lemma ascii_no_nul s : ascii_text s = true -> forall k, no_nul k = true -> no_nul (enc_str s k) = true.
Proof.
  induction s as [|c s IH]; intros H k K; [exact K|]. cbn [ascii_text] in H. apply andb_true_iff in H as (H & H3). apply andb_true_iff in H as (H1 & _).
  assert (Ascii.eqb c "000" = false) as N by (destruct (Ascii.eqb_spec c "000") as [->|]; [discriminate|reflexivity]).
  cbn [enc_str]. destruct (special c); cbn [no_nul]; rewrite N, IH by auto; reflexivity.
Qed.
Lemma pos_no_nul p : forall k, no_nul k = true -> no_nul (enc_pos p k) = true.
Proof. induction p as [p IH|p IH|]; intros k K; cbn [enc_pos no_nul]; rewrite ?IH by auto; auto. Qed.
Lemma enc_no_nul : forall j, plain j = true -> forall k, no_nul k = true -> no_nul (enc j k) = true.
Proof.
  apply (json_nested (fun j => plain j = true -> forall k, no_nul k = true -> no_nul (enc j k) = true)); try (intros; cbn [enc no_nul]; assumption).
  - intros [|] _ k K; exact K.
  - intros [|p|p] _ k K; cbn [enc no_nul]; auto; now apply pos_no_nul.
  - intros s P k K. cbn [enc no_nul]. now apply ascii_no_nul.
  - intros l IH P k K. cbn [plain] in P. cbn [enc no_nul]. apply andb_true_iff. split; [reflexivity|]. induction IH as [|j l Hj _ IHl]; [exact K|].
    cbn [forallb] in P. apply andb_true_iff in P as (P1 & P2). cbn [fold_right]. apply Hj; auto.
  - intros l IH P k K. cbn [plain] in P. apply andb_true_iff in P as (_ & P). cbn [enc no_nul]. apply andb_true_iff. split; [reflexivity|]. induction IH as [|(n, j) l Hj _ IHl]; [exact K|].
    cbn [forallb fst snd] in P, Hj. apply andb_true_iff in P as (P1 & P2). apply andb_true_iff in P1 as (P0 & P1). cbn [fold_right fst snd no_nul].
    apply andb_true_iff. split; [reflexivity|]. apply ascii_no_nul; [exact P0|]. apply Hj; auto.
Qed.

(** ** Check sums as digests and signatures *)
Fixpoint letters (w : nat) (z : Z) : string :=
  match w with
  | O => EmptyString
  | S w => String (if z mod 4 =? 0 then "a"%char else if z mod 4 =? 1 then "b"%char else if z mod 4 =? 2 then "c"%char else "d"%char) (letters w (z / 4))
  end.
Lemma letters_ascii w : forall z, ascii_text (letters w z) = true.
Proof. induction w as [|w IH]; intros z; [reflexivity|]. cbn [letters ascii_text]. rewrite IH. repeat destruct (_ =? _); reflexivity. Qed.
Fixpoint sum (m : Z) (acc : Z) (s : string) : Z :=
  match s with EmptyString => acc | String c r => sum m ((acc * 257 + Z.of_nat (nat_of_ascii c) + 1) mod m) r end.
Definition toy_sign (priv msg : string) : string := letters 14 (sum 99999989 7 (append priv msg)).
Definition gen_env : Env := {|
  canon := toy_canon; parse := toy_parse; rsa_type := fun _ => KUnknown;
  verify := fun ty k sg msg => Some (String.eqb sg (toy_sign k msg));
  sha256hex := fun s => letters 20 (sum 1000000000039 1 s); sha512hex := fun s => letters 20 (sum 999999999989 2 s) |}.
Definition gen_keyid (k : pubkey) : string := append "id-" (pk_value k).
Lemma gen_env_ok : env_ok gen_env.
Proof.
  split.
  - exact toy_round.
  - intros j P. split.
    + cbn. unfold toy_canon. destruct (enc_head j "") as (c & r & -> & _). discriminate.
    + apply no_nul_cut. now apply enc_no_nul.
  - reflexivity.
  - intros s. apply letters_ascii.
  - intros s. apply letters_ascii.
Qed.
Definition gkey (n : string) : keypair := {| kp_pub := {| pk_type := KEd25519; pk_value := n |}; kp_priv := n |}.
Lemma gkey_ok n : ascii_text n = true -> key_ok gen_env gen_keyid (gkey n).
Proof. intros H. unfold key_ok, gkey. cbn [kp_pub pk_type pk_value gen_keyid]. split; [discriminate|]. split; [intros X; now destruct X|]. split; [exact H|]. exact H. Qed.
Definition inv_toy (expires renewed corr : string) : invocation :=
  {| n_expires := expires; n_corr := corr; n_now := "2020-01-01T00:00:00Z"; n_renewed := renewed; n_sign := fun _ priv msg => toy_sign priv msg |}.
Lemma gkey_signs e r c n : signs gen_env (inv_toy e r c) (gkey n).
Proof. intros msg. cbn [n_sign inv_toy kp_pub gkey kp_priv pk_type pk_value verify gen_env]. split; [apply letters_ascii|]. now rewrite String.eqb_refl. Qed.
