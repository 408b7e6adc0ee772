(** The life of an IP Secondary's process: /repo/src/aktualizr_secondary/secondary_tcp_server.cc (constructor, run, stop,
    HandleOneConnection) and /repo/src/aktualizr_secondary/main.cc:82-124. Messages are seen here after decoding: the bytes
    are in BufModel.v. *)
From Verif Require Import Base BufModel.

(** What happens on a connection, in order: a message was decoded, with the answer of handleMsg (msg_handler.cc:11-26) and
    whether the response was sent (secondary_tcp_server.cc:178-197); the reading stopped (the peer closed, an error, no
    decodable message; 124-137); an exception; or stop() was called from elsewhere. When the list is at its end the peer is
    silent and the thread waits in recv (117: there is no timeout). *)
Inductive cev := VMsg (h : hcode) (sent : bool) | VEnd | VThrow | VStop.
(** secondary_tcp_server.h:50-56: keep_running_, exit_reason_ == kRebootNeeded; the answers to all messages handled so far. *)
Record lst := { l_keep : bool; l_reboot : bool; l_log : list hcode }.
(** secondary_tcp_server.cc:14-19 and secondary_tcp_server.h:54. *)
Definition lst0 : lst := {| l_keep := true; l_reboot := false; l_log := [] |}.
Definition no_keep (s : lst) : lst := {| l_keep := false; l_reboot := l_reboot s; l_log := l_log s |}.
Definition logged (h : hcode) (s : lst) : lst := {| l_keep := l_keep s; l_reboot := l_reboot s; l_log := l_log s ++ [h] |}.
Definition reboot_needed (s : lst) : lst := {| l_keep := l_keep s; l_reboot := true; l_log := l_log s |}.

(** 98-169 HandleOneConnection: waiting, an exception, or the value of keep_running_server. *)
Inductive cres := RWait | RThrow | REnd (keep_server : bool).
Fixpoint connection (rai : bool) (s : lst) (l : list cev) : lst * cres :=
  match l with
  | [] => (s, RWait)
  | VEnd :: _ => (s, REnd true)
  | VThrow :: _ => (s, RThrow)
  | VStop :: l' => connection rai (no_keep s) l'
  | VMsg h sent :: l' =>
      match h with
      | HReboot => let s1 := reboot_needed (logged h s) in
                   if rai then (s1, REnd false) else if sent then connection rai s1 l' else (s1, REnd true)
      | HOk => if sent then connection rai (logged h s) l' else (logged h s, REnd true)
      | HUnknown => (logged h s, REnd true)
      end
  end.

(** 46-74: what accept gives: a failure, a connection, or stop() (86-91) was called meanwhile. stop() connects to the
    listening socket; a connection that came before is served first. Its own connection is closed at once. *)
Inductive aev := LFail | LConn (c : list cev) | LStop (queued : option (list cev)).
Inductive rres := RunWait | RunThrow | RunBack.
(** 32-84 run(), after listen(). The second component: the accepted connections of clients that were not served. *)
Fixpoint run_server (rai : bool) (s : lst) (l : list aev) : lst * rres * list aev :=
  if negb (l_keep s) then (s, RunBack, l) else
  match l with
  | [] => (s, RunWait, [])
  | LFail :: l' => (s, RunBack, l')
  | LConn c :: l' =>
      match connection rai s c with
      | (s', RWait) => (s', RunWait, l')
      | (s', RThrow) => (s', RunThrow, l')
      | (s', REnd k) => run_server rai (if k then s' else no_keep s') l'
      end
  | LStop q :: l' =>
      match connection rai (no_keep s) (match q with Some c => c | None => [VEnd] end) with
      | (s', RWait) => (s', RunWait, l')
      | (s', RThrow) => (s', RunThrow, l')
      | (s', REnd k) => run_server rai (if k then s' else no_keep s') l'
      end
  end.

(** main.cc:82-124 from the construction of the server on (107-118). [first]: the connection to the Primary that the
    constructor opens (20-30): None when no Primary is configured or connect fails; the constructor ignores what
    HandleOneConnection returns. [listens]: whether listen succeeds (33-35). Simplification: completeInstall returns. *)
Inductive pres := PWait | PFail (* exit status 1 *) | PExit (rebooted : bool).
Definition secondary_process (rai : bool) (first : option (list cev)) (listens : bool) (l : list aev) : lst * pres :=
  match (match first with Some c => connection rai lst0 c | None => (lst0, REnd true) end) with
  | (s, RWait) => (s, PWait)
  | (s, RThrow) => (s, PFail)
  | (s, REnd _) =>
      if negb listens then (s, PFail) else
      match run_server rai s l with
      | (s', RunWait, _) => (s', PWait)
      | (s', RunThrow, _) => (s', PFail)
      | (s', RunBack, _) => (s', PExit (l_reboot s'))
      end
  end.
