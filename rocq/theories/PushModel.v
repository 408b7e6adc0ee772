(** Uploading an OSTree commit: /repo/src/sota_tools/ostree_object.cc, request_pool.cc, deploy.cc:14-64.
    Objects are numbers (OSTreeRepo::GetObject shares one object per hash). Iterators into the children lists are unique numbers.
    Simplifications: curl and file errors other than HTTP answers (runtime_error) and reference counts are left out; all requests of one
    round are launched at the same time; the loop's waiting is left out: each round the environment says which requests are answered, how and when. *)
From Verif Require Import Base RateModel.

Definition obj := nat.
(** ostree_object.h:18-20, garage_common.h:6-19 *)
Inductive presence := Unknown | Present | Missing | InProgress.
Inductive curop := OpHead | OpPost.
Inductive mode := MDefault | MDryRun | MWalkTree | MPushTree.
(** The fields of OSTreeObject: ostree_object.h:98-114. *)
Record ob := { pres : presence; left : list (nat * obj); pars : list (obj * nat); op : curop; started : Z; last_ok : bool }.
Definition ob0 : ob := {| pres := Unknown; left := []; pars := []; op := OpHead; started := 0; last_ok := false |}.
(** What the server sees and answers: requests, and answers (object, HTTP code, the answered URL is the object's). *)
Inductive tev := THead (o : obj) | TPost (o : obj) | THeadAns (o : obj) (code : Z) (url : bool) | TPostAns (o : obj) (code : Z) (url : bool).
(** RequestPool: request_pool.h:47-60. [bad]: undefined behaviour or a failed assertion happened. [fresh]: next iterator. *)
Record pool := { objs : obj -> ob; qq : list obj; uq : list obj; infl : list obj; running : Z; rc : rate; stopped : bool;
                 fresh : nat; bad : bool; trace : list tev }.
(** The source repository: what an object refers to, in order, and what exists. *)
Record repo := { kids : obj -> list obj; have : obj -> bool }.

Definition upd (f : obj -> ob) (k : obj) (v : ob) : obj -> ob := fun x => if Nat.eqb x k then v else f x.
Definition set_ob (o : obj) (b : ob) (s : pool) : pool :=
  {| objs := upd (objs s) o b; qq := qq s; uq := uq s; infl := infl s; running := running s; rc := rc s; stopped := stopped s; fresh := fresh s; bad := bad s; trace := trace s |}.
Definition set_pres (o : obj) (p : presence) (s : pool) : pool :=
  let b := objs s o in set_ob o {| pres := p; left := left b; pars := pars b; op := op b; started := started b; last_ok := last_ok b |} s.
Definition set_left (o : obj) (l : list (nat * obj)) (s : pool) : pool :=
  let b := objs s o in set_ob o {| pres := pres b; left := l; pars := pars b; op := op b; started := started b; last_ok := last_ok b |} s.
Definition set_pars (o : obj) (l : list (obj * nat)) (s : pool) : pool :=
  let b := objs s o in set_ob o {| pres := pres b; left := left b; pars := l; op := op b; started := started b; last_ok := last_ok b |} s.
Definition set_op (o : obj) (p : curop) (t : Z) (s : pool) : pool :=
  let b := objs s o in set_ob o {| pres := pres b; left := left b; pars := pars b; op := p; started := t; last_ok := last_ok b |} s.
Definition set_ok (o : obj) (r : bool) (s : pool) : pool :=
  let b := objs s o in set_ob o {| pres := pres b; left := left b; pars := pars b; op := op b; started := started b; last_ok := r |} s.
Definition set_queues (q u i : list obj) (s : pool) : pool :=
  {| objs := objs s; qq := q; uq := u; infl := i; running := running s; rc := rc s; stopped := stopped s; fresh := fresh s; bad := bad s; trace := trace s |}.
Definition set_running (n : Z) (s : pool) : pool :=
  {| objs := objs s; qq := qq s; uq := uq s; infl := infl s; running := n; rc := rc s; stopped := stopped s; fresh := fresh s; bad := bad s; trace := trace s |}.
Definition set_rc (r : rate) (s : pool) : pool :=
  {| objs := objs s; qq := qq s; uq := uq s; infl := infl s; running := running s; rc := r; stopped := stopped s; fresh := fresh s; bad := bad s; trace := trace s |}.
Definition set_bad (s : pool) : pool :=
  {| objs := objs s; qq := qq s; uq := uq s; infl := infl s; running := running s; rc := rc s; stopped := stopped s; fresh := fresh s; bad := true; trace := trace s |}.
Definition set_fresh (n : nat) (s : pool) : pool :=
  {| objs := objs s; qq := qq s; uq := uq s; infl := infl s; running := running s; rc := rc s; stopped := stopped s; fresh := n; bad := bad s; trace := trace s |}.
Definition emit (e : tev) (s : pool) : pool :=
  {| objs := objs s; qq := qq s; uq := uq s; infl := infl s; running := running s; rc := rc s; stopped := stopped s; fresh := fresh s; bad := bad s; trace := trace s ++ [e] |}.
(** request_pool.h:19-23 Abort *)
Definition abort (s : pool) : pool :=
  {| objs := objs s; qq := []; uq := []; infl := infl s; running := running s; rc := rc s; stopped := true; fresh := fresh s; bad := bad s; trace := trace s |}.

(** request_pool.cc:36-48; LaunchNotify ostree_object.h:59 *)
Definition add_query (o : obj) (s : pool) : pool :=
  let s := set_pres o InProgress s in
  if stopped s then s else set_queues (qq s ++ [o]) (uq s) (infl s) s.
Definition add_upload (o : obj) (s : pool) : pool :=
  let s := set_pres o InProgress s in
  if stopped s then s else set_queues (qq s) (uq s ++ [o]) (infl s) s.

(** ostree_object.cc:45-48 ChildNotify: erasing an element that is not there is undefined. *)
Definition child_notify (p : obj) (it : nat) (s : pool) : pool :=
  let l := left (objs s p) in
  if existsb (fun e => Nat.eqb (fst e) it) l then set_left p (filter (fun e => negb (Nat.eqb (fst e) it)) l) s else set_bad s.
(** 50-59 NotifyParents *)
Definition notify_one (s : pool) (r : obj * nat) : pool :=
  let s := child_notify (fst r) (snd r) s in
  match left (objs s (fst r)) with [] => add_upload (fst r) s | _ :: _ => s end.
Definition notify_parents (o : obj) (s : pool) : pool := fold_left notify_one (pars (objs s o)) s.
(** 61-71 AppendChild *)
Definition append_child (o c : obj) (s : pool) : pool :=
  match pres (objs s c) with
  | Present => s
  | _ => let it := fresh s in
         let s := set_left o (left (objs s o) ++ [(it, c)]) s in
         let s := set_pars c (pars (objs s c) ++ [(o, it)]) s in
         set_fresh (S it) s
  end.
(** 74-171 PopulateChildren: false: OSTreeObjectMissing was thrown. *)
Fixpoint populate (R : repo) (o : obj) (l : list obj) (s : pool) : pool * bool :=
  match l with
  | [] => (s, true)
  | c :: l' => if have R c then populate R o l' (append_child o c s) else (s, false)
  end.
(** 173-179 QueryChildren *)
Definition query_one (s : pool) (e : nat * obj) : pool :=
  match pres (objs s (snd e)) with Unknown => add_query (snd e) s | _ => s end.
Definition query_children (o : obj) (s : pool) : pool := fold_left query_one (left (objs s o)) s.
(** 255-270 CheckChildren *)
Definition check_children (R : repo) (o : obj) (code : Z) (s : pool) : pool :=
  match populate R o (kids R o) s with
  | (s, true) => match left (objs s o) with
                 | [] => if code =? 200 then s else add_upload o s
                 | _ :: _ => query_children o s
                 end
  | (s, false) => abort s
  end.
(** 272-288 PresenceError, UploadError *)
Definition presence_error (o : obj) (s : pool) : pool := add_query o (set_ok o false (set_pres o Unknown s)).
Definition upload_error (o : obj) (s : pool) : pool := add_upload o (set_ok o false (set_pres o Missing s)).
(** 290-348 CurlDone. The handle is gone afterwards. *)
Definition rm (o : obj) (l : list obj) : list obj := filter (fun x => negb (Nat.eqb x o)) l.
Definition curl_done (R : repo) (m : mode) (o : obj) (code : Z) (url : bool) (s : pool) : pool :=
  let s := set_queues (qq s) (uq s) (rm o (infl s)) s in
  match op (objs s o) with
  | OpHead =>
      let s := emit (THeadAns o code url) s in
      if negb url then presence_error o s
      else if code =? 200 then
        let s := set_ok o true (set_pres o Present s) in
        match m with MWalkTree | MPushTree => check_children R o code s | _ => notify_parents o s end
      else if code =? 404 then check_children R o code (set_ok o true (set_pres o Missing s))
      else presence_error o s
  | OpPost =>
      let s := emit (TPostAns o code url) s in
      if negb url then upload_error o s
      else if (code =? 204) || (code =? 409) then notify_parents o (set_ok o true (set_pres o Present s))
      else upload_error o s
  end.
(** 181-207 MakeTestRequest, 209-253 Upload: a second request for the same object is a failed assertion. *)
Definition make_test_request (t : Z) (o : obj) (s : pool) : pool :=
  let s := if existsb (Nat.eqb o) (infl s) then set_bad s else s in
  emit (THead o) (set_op o OpHead t (set_queues (qq s) (uq s) (infl s ++ [o]) s)).
Definition upload (m : mode) (t : Z) (o : obj) (s : pool) : pool :=
  match m with
  | MDefault | MPushTree =>
      let s := if existsb (Nat.eqb o) (infl s) then set_bad s else s in
      emit (TPost o) (set_op o OpPost t (set_queues (qq s) (uq s) (infl s ++ [o]) s))
  | _ => set_pres o Present s
  end.
(** request_pool.cc:50-75 LoopLaunch; each round raises the number of running requests. *)
Definition launch_one (m : mode) (t : Z) (s : pool) : pool :=
  match qq s with
  | o :: q => make_test_request t o (set_queues q (uq s) (infl s) s)
  | [] => match uq s with
          | o :: u => let s := upload m t o (set_queues [] u (infl s) s) in
                      match m with MDryRun | MWalkTree => notify_parents o s | _ => s end
          | [] => s
          end
  end.
Definition nothing_queued (s : pool) : bool := match qq s, uq s with [], [] => true | _, _ => false end.
Fixpoint launch_loop (n : nat) (m : mode) (t : Z) (s : pool) : pool :=
  match n with
  | O => s
  | S n' => if nothing_queued s then s else let s := launch_one m t s in launch_loop n' m t (set_running (running s + 1) s)
  end.
Definition loop_launch (m : mode) (t : Z) (s : pool) : pool := launch_loop (Z.to_nat (max_concurrency (rc s) - running s)) m t s.
(** 136-158: one completed request. *)
Definition answer := (obj * Z * bool * Z)%type.
Definition listen_one (R : repo) (m : mode) (s : pool) (a : answer) : pool :=
  let '(o, code, url, now) := a in
  if existsb (Nat.eqb o) (infl s) then
    let s := curl_done R m o code url s in
    let s := set_rc (request_completed (started (objs s o)) now (last_ok (objs s o)) (rc s)) s in
    if server_has_failed (rc s) then abort s else s
  else s.
(** 77-159 LoopListen: curl_multi_perform sets the number of running requests, then the completed ones are handled. *)
Definition completes (s : pool) (l : list answer) : list obj :=
  filter (fun o => existsb (fun a => Nat.eqb (fst (fst (fst a))) o) l) (infl s).
Definition loop_listen (R : repo) (m : mode) (l : list answer) (s : pool) : pool :=
  fold_left (listen_one R m) l (set_running (Z.of_nat (List.length (infl s)) - Z.of_nat (List.length (completes s l))) s).
(** One round of the environment: time of launches, answers. *)
Definition round := (Z * list answer)%type.
Definition loop (R : repo) (m : mode) (e : round) (s : pool) : pool := loop_listen R m (snd e) (loop_launch m (fst e) s).
(** deploy.cc:14-24 CheckPoolState *)
Definition is_idle (s : pool) : bool := nothing_queued s && (running s =? 0).
Definition is_present (s : pool) (o : obj) : bool := match pres (objs s o) with Present => true | _ => false end.
Definition check_pool_state (m : mode) (root : obj) (s : pool) : bool :=
  match m with
  | MWalkTree | MPushTree => negb (stopped s) && negb (is_idle s)
  | _ => negb (is_present s root) && negb (stopped s)
  end.
Definition pool0 (cap : Z) : pool :=
  {| objs := fun _ => ob0; qq := []; uq := []; infl := []; running := 0; rc := rate_init cap; stopped := false; fresh := 0; bad := false; trace := [] |}.
(** deploy.cc:26-64 UploadToTreehub: the state after the given rounds, and whether the loop has ended. *)
Fixpoint rounds (R : repo) (m : mode) (root : obj) (l : list round) (s : pool) : pool * bool :=
  match l with
  | [] => (s, false)
  | e :: l' => let s := loop R m e s in if check_pool_state m root s then rounds R m root l' s else (s, true)
  end.
Definition push_run (R : repo) (m : mode) (cap : Z) (root : obj) (l : list round) : pool * bool := rounds R m root l (add_query root (pool0 cap)).
(** The result: None: still running. *)
Definition push (R : repo) (m : mode) (cap : Z) (root : obj) (l : list round) : option bool :=
  if have R root then match push_run R m cap root l with (s, true) => Some (is_present s root) | (_, false) => None end else Some false.
