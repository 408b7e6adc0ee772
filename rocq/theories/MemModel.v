(** Memory of the messages exchanged by Primary and Secondary.
    /repo/src/libaktualizr-posix/asn1/asn1_message.h:10-146 (Asn1Sub, Asn1Message: Empty, FromRaw, present, accessors, destructor, counting),
    /repo/src/libaktualizr-posix/asn1/asn1_message.cc:55-101 (Asn1Rpc: how the answer becomes a message),
    /repo/src/libaktualizr-posix/ipuptanesecondary.cc:29-483 (the requests),
    /repo/src/aktualizr_secondary/secondary_tcp_server.cc:98-168 (one request and its response),
    /repo/src/aktualizr_secondary/aktualizr_secondary.cc:193-345, aktualizr_secondary_file.cc:13,63-83, aktualizr_secondary_ostree.cc:11,60-69 (handlers).
    Simplifications: the memory that hangs on a message (strings, lists) is a number of blocks; the message's own block
    is not counted; allocations succeed; moved and elided pointers count as one pointer. *)
From Verif Require Import Base.
Local Open Scope nat_scope.

(** AKIpUptaneMes_PR *)
Inductive tag :=
  | Nothing | GetInfoReq | GetInfoResp | ManifestReq | ManifestResp | PutMetaReq | PutMetaResp
  | SendFirmwareReq | SendFirmwareResp | InstallReq | InstallResp | UploadDataReq | UploadDataResp
  | DownloadOstreeRevReq | DownloadOstreeRevResp | PutMetaReq2 | PutMetaResp2 | InstallResp2 | VersionReq | VersionResp.
Definition tag_dec (a b : tag) : {a = b} + {a <> b}. Proof. decide equality. Defined.
Definition tag_eqb (a b : tag) : bool := if tag_dec a b then true else false.

(** Asn1Message: counter (asn1_message.h:135), [present], and the member of the union that was filled with how many blocks (132). *)
Record message := mkMsg { count : nat; present : tag; member : tag; blocks : nat }.
(** The messages that exist, by address; the pointers that exist, by variable; memory taken, given back and lost. *)
Record mem := mkMem { heap : list (nat * message); vars : list (nat * nat); next : nat; taken : nat; freed : nat; lost : nat }.
Definition mem0 : mem := mkMem [] [] 0 0 0 0.
Inductive outcome := Fine (s : mem) | UseAfterFree | WrongMember.

Fixpoint get {A} (k : nat) (l : list (nat * A)) : option A :=
  match l with [] => None | (k', a) :: r => if k =? k' then Some a else get k r end.
Fixpoint del {A} (k : nat) (l : list (nat * A)) : list (nat * A) :=
  match l with [] => [] | (k', a) :: r => if k =? k' then del k r else (k', a) :: del k r end.
Definition put {A} (k : nat) (a : A) (l : list (nat * A)) : list (nat * A) := (k, a) :: del k l.

(** intrusive_ptr_add_ref (asn1_message.h:56) *)
Definition add_ref (a : nat) (s : mem) : outcome :=
  match get a (heap s) with
  | None => UseAfterFree
  | Some m => Fine (mkMem (put a (mkMsg (S (count m)) (present m) (member m) (blocks m)) (heap s)) (vars s) (next s) (taken s) (freed s) (lost s))
  end.
(** ~Asn1Message (55): ASN_STRUCT_FREE_CONTENTS_ONLY frees the member that [present] names, nothing if it is NOTHING.
    To free a member other than the one that was filled is undefined. *)
Definition destroy (a : nat) (m : message) (s : mem) : outcome :=
  if tag_eqb (present m) (member m) then Fine (mkMem (del a (heap s)) (vars s) (next s) (taken s) (freed s + blocks m) (lost s))
  else if (blocks m =? 0) || tag_eqb (present m) Nothing
       then Fine (mkMem (del a (heap s)) (vars s) (next s) (taken s) (freed s) (lost s + blocks m))
       else WrongMember.
(** intrusive_ptr_release (57-61) *)
Definition release (a : nat) (s : mem) : outcome :=
  match get a (heap s) with
  | None => UseAfterFree
  | Some m =>
      if count m - 1 =? 0 then destroy a m s
      else Fine (mkMem (put a (mkMsg (count m - 1) (present m) (member m) (blocks m)) (heap s)) (vars s) (next s) (taken s) (freed s) (lost s))
  end.
Definition andthen (o : outcome) (k : mem -> outcome) : outcome := match o with Fine s => k s | e => e end.
Definition set_vars (v : list (nat * nat)) (s : mem) : mem := mkMem (heap s) v (next s) (taken s) (freed s) (lost s).
(** intrusive_ptr assignment: the new message is counted first, then the old one released. *)
Definition assign (x a : nat) (s : mem) : outcome :=
  andthen (add_ref a s) (fun s1 =>
    let s2 := set_vars (put x a (vars s1)) s1 in
    match get x (vars s) with None => Fine s2 | Some b => release b s2 end).
Definition alloc (m : message) (s : mem) : mem :=
  mkMem ((next s, m) :: heap s) (vars s) (S (next s)) (taken s + blocks m) (freed s) (lost s).

Inductive op :=
  | OEmpty (x : nat)                      (* Asn1Message::Empty (46) *)
  | ORaw (x : nat) (p : tag) (n : nat)    (* Asn1Message::FromRaw (53, 139-145) of what ber_decode made: member p, n blocks *)
  | OCopy (x y : nat)                     (* y = x, or y = x->member(): an Asn1Sub holds a pointer as well (13, 69-72) *)
  | ODrop (x : nat)                       (* x goes out of scope *)
  | OPresent (x : nat) (p : tag)          (* x->present(p) (64-67) *)
  | OFill (x : nat) (p : tag) (n : nat)   (* n blocks are allocated in member p, through x *)
  | ORead (x : nat) (p : tag).            (* member p is read, through x *)

(** One operation; operations on variables that do not exist cannot be written and do nothing here. *)
Definition step (o : op) (s : mem) : outcome :=
  match o with
  | OEmpty x => assign x (next s) (alloc (mkMsg 0 Nothing Nothing 0) s)
  | ORaw x p n => assign x (next s) (alloc (mkMsg 0 p p n) s)
  | OCopy x y => match get x (vars s) with None => Fine s | Some a => assign y a s end
  | ODrop x => match get x (vars s) with None => Fine s | Some a => release a (set_vars (del x (vars s)) s) end
  | OPresent x p =>
      match get x (vars s) with
      | None => Fine s
      | Some a =>
          match get a (heap s) with
          | None => UseAfterFree
          | Some m => Fine (mkMem (put a (mkMsg (count m) p (member m) (blocks m)) (heap s)) (vars s) (next s) (taken s) (freed s) (lost s))
          end
      end
  | OFill x p n =>
      match get x (vars s) with
      | None => Fine s
      | Some a =>
          match get a (heap s) with
          | None => UseAfterFree
          | Some m =>
              if (blocks m =? 0) || tag_eqb (member m) p
              then Fine (mkMem (put a (mkMsg (count m) (present m) p (blocks m + n)) (heap s)) (vars s) (next s) (taken s + n) (freed s) (lost s))
              else WrongMember
          end
      end
  | ORead x p =>
      match get x (vars s) with
      | None => Fine s
      | Some a =>
          match get a (heap s) with
          | None => UseAfterFree
          | Some m => if tag_eqb (present m) p then Fine s else WrongMember
          end
      end
  end.
Fixpoint run (l : list op) (s : mem) : outcome :=
  match l with [] => Fine s | o :: r => andthen (step o s) (run r) end.

(** The Primary's requests, ipuptanesecondary.cc. *)
Inductive rpc := RCreate | RVersion | RPutMeta1 | RPutMeta2 | RManifest | RPing | RSendFirmware1 | RInstall1 | ROstree | RUpload | RInstall2.
(** What present() is set to: 31, 105, 160, 213, 251, 270, 308, 356, 388, 437, 462 *)
Definition rq_present (r : rpc) : tag :=
  match r with
  | RCreate => GetInfoReq | RVersion => VersionReq | RPutMeta1 => PutMetaReq | RPutMeta2 => PutMetaReq2 | RManifest => ManifestReq
  | RPing => GetInfoReq | RSendFirmware1 => SendFirmwareReq | RInstall1 => InstallReq | ROstree => DownloadOstreeRevReq
  | RUpload => UploadDataReq | RInstall2 => InstallReq
  end.
(** The member that is filled: 33, 106, 162, 215, none, 272, 310, 359, 390, 439, 465 *)
Definition rq_member (r : rpc) : option tag :=
  match r with
  | RCreate => Some GetInfoReq | RVersion => Some VersionReq | RPutMeta1 => Some PutMetaReq | RPutMeta2 => Some PutMetaReq2 | RManifest => None
  | RPing => Some GetInfoReq | RSendFirmware1 => Some SendFirmwareReq | RInstall1 => Some InstallReq | ROstree => Some DownloadOstreeRevReq
  | RUpload => Some UploadDataReq | RInstall2 => Some InstallReq
  end.
(** The answer expected: 36, 110, 187, 234, 254, 276, 314, 365, 394, 449, 471 *)
Definition rs_expected (r : rpc) : tag :=
  match r with
  | RCreate => GetInfoResp | RVersion => VersionResp | RPutMeta1 => PutMetaResp | RPutMeta2 => PutMetaResp2 | RManifest => ManifestResp
  | RPing => GetInfoResp | RSendFirmware1 => SendFirmwareResp | RInstall1 => InstallResp | ROstree => DownloadOstreeRevResp
  | RUpload => UploadDataResp | RInstall2 => InstallResp2
  end.
(** The member of the answer that is read: 41, 123, 194, 241, 258, none, 321, 373, 401, 456, 479 *)
Definition rs_member (r : rpc) : option tag :=
  match r with
  | RCreate => Some GetInfoResp | RVersion => Some VersionResp | RPutMeta1 => Some PutMetaResp | RPutMeta2 => Some PutMetaResp2
  | RManifest => Some ManifestResp | RPing => None | RSendFirmware1 => Some SendFirmwareResp | RInstall1 => Some InstallResp
  | ROstree => Some DownloadOstreeRevResp | RUpload => Some UploadDataResp | RInstall2 => Some InstallResp2
  end.

(** What came back (Asn1Rpc): no connection (95-99); nothing at all (recv failed at once); a message that was decoded;
    a message that was begun, with member [p] and [n] blocks so far, and is malformed or cut off. *)
Inductive answer := NoConnection | NoData | Decoded (p : tag) (n : nat) | Broken (p : tag) (n : nat).
Definition v_req := 0. Definition v_m := 1. Definition v_resp := 2. Definition v_r := 3.
(** asn1_message.cc:81-89, 97-98 *)
Definition rpc_answer (a : answer) : list op :=
  match a with
  | NoConnection => [OEmpty v_resp]
  | NoData => [OEmpty v_resp; OPresent v_resp Nothing]
  | Decoded p n => [ORaw v_resp p n]
  | Broken p n => [ORaw v_resp p n; OPresent v_resp Nothing]
  end.
Definition answer_present (a : answer) : tag := match a with Decoded p _ => p | _ => Nothing end.
(** One request, [n] blocks of data in it, and its answer; variables end in the reverse order. *)
Definition request (r : rpc) (n : nat) (a : answer) : list op :=
  [OEmpty v_req; OPresent v_req (rq_present r)]
  ++ match rq_member r with Some p => [OCopy v_req v_m; OFill v_m p n] | None => [] end
  ++ rpc_answer a
  ++ (if tag_eqb (answer_present a) (rs_expected r)
      then match rs_member r with Some p => [OCopy v_resp v_r; ORead v_r p; ODrop v_r] | None => [] end
      else [])
  ++ [ODrop v_resp; ODrop v_m; ODrop v_req].

(** The Secondary's handlers: the request they are registered for (and whose member they read), and their response. *)
Inductive handler := HGetInfo | HVersion | HManifest | HPutMeta | HInstall | HUpload | HOstree.
(** aktualizr_secondary.cc:194-206, aktualizr_secondary_file.cc:13, aktualizr_secondary_ostree.cc:11 *)
Definition h_for (h : handler) : tag :=
  match h with
  | HGetInfo => GetInfoReq | HVersion => VersionReq | HManifest => ManifestReq | HPutMeta => PutMetaReq2 | HInstall => InstallReq
  | HUpload => UploadDataReq | HOstree => DownloadOstreeRevReq
  end.
(** the member of the request that is read: none, 227, none, 273, none, aktualizr_secondary_file.cc:70, aktualizr_secondary_ostree.cc:62 *)
Definition h_reads (h : handler) : option tag :=
  match h with
  | HVersion => Some VersionReq | HPutMeta => Some PutMetaReq2 | HUpload => Some UploadDataReq | HOstree => Some DownloadOstreeRevReq | _ => None
  end.
(** 214, 237, 252, 324, 336, aktualizr_secondary_file.cc:78, aktualizr_secondary_ostree.cc:64 *)
Definition h_present (h : handler) : tag :=
  match h with
  | HGetInfo => GetInfoResp | HVersion => VersionResp | HManifest => ManifestResp | HPutMeta => PutMetaResp2 | HInstall => InstallResp2
  | HUpload => UploadDataResp | HOstree => DownloadOstreeRevResp
  end.
(** 215, 238, 253, 324, 336, aktualizr_secondary_file.cc:78, aktualizr_secondary_ostree.cc:64 *)
Definition h_member (h : handler) : tag :=
  match h with
  | HGetInfo => GetInfoResp | HVersion => VersionResp | HManifest => ManifestResp | HPutMeta => PutMetaResp2 | HInstall => InstallResp2
  | HUpload => UploadDataResp | HOstree => DownloadOstreeRevResp
  end.
Definition handlers : list handler := [HGetInfo; HVersion; HManifest; HPutMeta; HInstall; HUpload; HOstree].
(** MsgDispatcher::handleMsg, msg_handler.cc:11-19 *)
Definition handler_of (p : tag) : option handler := find (fun h => tag_eqb (h_for h) p) handlers.
(** What the Secondary receives. *)
Inductive incoming := INothing | IBroken (p : tag) (n : nat) | IDecoded (p : tag) (n : nat).
(** One turn of the loop, secondary_tcp_server.cc:108-166; [k] blocks of data in the response. *)
Definition serve (i : incoming) (k : nat) : list op :=
  match i with
  | INothing => [OEmpty v_req; ODrop v_req]
  | IBroken p n => [ORaw v_req p n; ODrop v_req]
  | IDecoded p n =>
      [ORaw v_req p n; OEmpty v_resp]
      ++ match handler_of p with
         | None => []
         | Some h =>
             match h_reads h with Some q => [OCopy v_req v_r; ORead v_r q; ODrop v_r] | None => [] end
             ++ [OPresent v_resp (h_present h); OCopy v_resp v_m; OFill v_m (h_member h) k; ODrop v_m]
         end
      ++ [ODrop v_resp; ODrop v_req]
  end.

(** A process exchanges messages for as long as it likes. *)
Inductive exchange := Primary (r : rpc) (n : nat) (a : answer) | Secondary (i : incoming) (k : nat).
Definition ops_of (e : exchange) : list op := match e with Primary r n a => request r n a | Secondary i k => serve i k end.
