(** Keys and certificates on a PKCS#11 token: /repo/src/libaktualizr/crypto/p11engine.cc:145-305 (findTokenSlot, readUptanePublicKey,
    generateUptaneKeyPair, readTlsCert), p11engine.cc:80 with p11engine.h:57-60 (the names given to curl and OpenSSL), p11engine.h:79-100
    (P11EngineGuard) and keymanager.cc:305-328 (generateUptaneKeyPair with the key on the token).
    Simplifications: the token holds keys and certificates with their ids in the order in which it lists them; log-in works or not
    ([t_open]); listing works; an object once stored stays. *)
From Verif Require Import Base.

(** ** Ids *)
Definition acode (c : ascii) : Z := Z.of_nat (nat_of_ascii c).
Definition hexd (c : ascii) : option Z :=
  let n := acode c in
  if (48 <=? n) && (n <=? 57) then Some (n - 48)
  else if (97 <=? n) && (n <=? 102) then Some (n - 87)
  else if (65 <=? n) && (n <=? 70) then Some (n - 55) else None.
(** boost::algorithm::unhex; None: it throws (a character that is no digit, or an odd number of them) *)
Fixpoint unhex (s : string) : option (list Z) :=
  match s with
  | EmptyString => Some []
  | String a (String b s') =>
      match hexd a, hexd b, unhex s' with Some x, Some y, Some l => Some (16 * x + y :: l) | _, _, _ => None end
  | _ => None
  end.
Definition id_eqb (a b : list Z) : bool := if list_eq_dec Z.eq_dec a b then true else false.

(** ** The token *)
Record token := { t_open : bool; t_priv : list (list Z * Z); t_pub : list (list Z * Z); t_cert : list (list Z * string) }.   (* id, key *)
Fixpoint find_id {A} (id : list Z) (l : list (list Z * A)) : option A :=
  match l with [] => None | (i, x) :: l' => if id_eqb i id then Some x else find_id id l' end.
Definition odd_len (s : string) : bool := negb (Nat.even (String.length s)).

Inductive found (A : Type) := Got (x : A) | Missing | Thrown.
Arguments Got {A}. Arguments Missing {A}. Arguments Thrown {A}.
(** p11engine.cc:165-214 readUptanePublicKey and 252-305 readTlsCert: the same search *)
Definition read_object {A} (module id : string) (t : token) (l : list (list Z * A)) : found A :=
  if String.eqb module "" || odd_len id || negb (t_open t) then Missing
  else match unhex id with
       | None => Thrown
       | Some b => match find_id b l with Some x => Got x | None => Missing end
       end.
Definition read_public (module id : string) (t : token) : found Z := read_object module id t (t_pub t).
Definition read_cert (module id : string) (t : token) : found string := read_object module id t (t_cert t).

(** What becomes of a key generation: both objects stored, the second not stored (an error, or the device was switched off in between),
    or none. *)
Inductive storing := Both | PrivateOnly | Neither.
(** p11engine.cc:216-250 generateUptaneKeyPair; [k]: the new key *)
Definition generate (id : string) (k : Z) (how : storing) (t : token) : token * bool :=
  if negb (t_open t) then (t, false) else
  match unhex id with
  | None => (t, false)
  | Some b =>
      match how with
      | Neither => (t, false)
      | PrivateOnly => ({| t_open := t_open t; t_priv := t_priv t ++ [(b, k)]; t_pub := t_pub t; t_cert := t_cert t |}, false)
      | Both => ({| t_open := t_open t; t_priv := t_priv t ++ [(b, k)]; t_pub := t_pub t ++ [(b, k)]; t_cert := t_cert t |}, true)
      end
  end.
(** keymanager.cc:315-326; None: an exception, or switched off *)
Definition ensure_key (module id : string) (k : Z) (how : storing) (t : token) : token * option Z :=
  match read_public module id t with
  | Got p => (t, Some p)
  | Thrown => (t, None)
  | Missing =>
      let t1 := fst (generate id k how t) in
      (t1, match read_public module id t1 with Got p => Some p | _ => None end)
  end.
(** A history of starts: for each the key it would generate and what becomes of it. *)
Fixpoint ensures (module id : string) (l : list (Z * storing)) (t : token) : token :=
  match l with [] => t | (k, h) :: l' => ensures module id l' (fst (ensure_key module id k h t)) end.
(** crypto.cc:37-46, keymanager.cc:260-275 signTuf: the engine loads a private key with the id; with several, which one is its affair. *)
Definition candidates (id : string) (t : token) : list Z :=
  match unhex id with Some b => map snd (filter (fun x => id_eqb (fst x) b) (t_priv t)) | None => [] end.
Definition sign_key (pick : list Z -> option Z) (id : string) (t : token) : option Z := pick (candidates id t).

(** ** Names for curl *)
(** p11engine.cc:80, p11engine.h:57-60 *)
Definition uri (serial pass id : string) : string :=
  append "pkcs11:serial=" (append serial (append ";pin-value=" (append pass (append ";id=%" id)))).
(** RFC 7512, as the engine reads the id: percent-encoded bytes, others for themselves. *)
Fixpoint pct (s : string) : option (list Z) :=
  match s with
  | EmptyString => Some []
  | String c s' =>
      if Ascii.eqb c "%"%char then
        match s' with
        | String a (String b r) => match hexd a, hexd b, pct r with Some x, Some y, Some l => Some (16 * x + y :: l) | _, _, _ => None end
        | _ => None
        end
      else match pct s' with Some l => Some (acode c :: l) | None => None end
  end.
(** The id part of a name made by [uri]. *)
Definition named (id : string) : option (list Z) := pct (String "%" id).

(** ** P11EngineGuard, p11engine.h:79-100: one engine for the process; a configuration is a number here. *)
Record guards := { g_inst : option Z; g_count : nat }.
Inductive gop := GNew (cfg : Z) | GDrop.
Definition gstep (g : guards) (o : gop) : guards :=
  match o with
  | GNew c => {| g_inst := match g_inst g with Some i => Some i | None => Some c end; g_count := S (g_count g) |}
  | GDrop => let n := pred (g_count g) in {| g_inst := match n with O => None | _ => g_inst g end; g_count := n |}
  end.
