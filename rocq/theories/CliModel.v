(** The program aktualizr and the C interface: /repo/src/aktualizr_primary/main.cc:105-202,
    /repo/src/libaktualizr/utilities/sig_handler.cc, /repo/src/libaktualizr-c/libaktualizr-c.cc. *)
From Verif Require Import Base.

(** ** Signals, sig_handler.cc and main.cc:139-147 *)

(** The main thread: before start(); the polling thread is started; the handlers are installed and the run mode is at work;
    the Aktualizr is destroyed at the end of the try block; the destructor of the SigHandler has set exit_flag_; ended. *)
Inductive mphase := MInit | MThread | MRun | MGone | MJoin | MEnd.
(** The polling thread: not there; before it takes the mutex; about to test the marker; in wait_for; in on_signal, before Abort and the setting of the flag
    in Shutdown, and before the notification in Shutdown; at its end.  It has the mutex from TPoll on, except in TWait. *)
Inductive tphase := TNone | TStart | TPoll | TWait | TCall | TNotify | TDone.
(** What the polling thread does with the Aktualizr: start of on_signal, end of it; with or without it being there. *)
Inductive use := UShutdown (alive : bool) | UNotify (alive : bool).
Record sstate := { s_main : mphase; s_poll : tphase; s_mark : bool; s_flag : bool; s_uses : list use; s_killed : bool; s_got : nat }.
Definition sinit : sstate := {| s_main := MInit; s_poll := TNone; s_mark := false; s_flag := false; s_uses := []; s_killed := false; s_got := 0 |}.
(** A signal arrives; the main thread goes on; the polling thread goes on, from wait_for only if the second is over or the flag is set. *)
Inductive sact := ASignal | AMain | APoll.
Definition alive (s : sstate) : bool := match s_main s with MThread | MRun => true | _ => false end.
Definition go (p : tphase) (m : bool) (u : list use) (s : sstate) : sstate :=
  {| s_main := s_main s; s_poll := p; s_mark := m; s_flag := s_flag s; s_uses := s_uses s ++ u; s_killed := s_killed s; s_got := s_got s |}.
Definition main_at (m : mphase) (p : tphase) (f : bool) (s : sstate) : sstate :=
  {| s_main := m; s_poll := p; s_mark := s_mark s; s_flag := f; s_uses := s_uses s; s_killed := s_killed s; s_got := s_got s |}.
Definition sstep (s : sstate) (a : sact) : option sstate :=
  if s_killed s then None else
  match a with
  | ASignal =>
      match s_main s with
      | MInit | MThread => Some {| s_main := s_main s; s_poll := s_poll s; s_mark := s_mark s; s_flag := s_flag s; s_uses := s_uses s; s_killed := true; s_got := s_got s |}
                                                                                            (* the default action *)
      | MEnd => None
      | _ => Some {| s_main := s_main s; s_poll := s_poll s; s_mark := true; s_flag := s_flag s; s_uses := s_uses s; s_killed := false; s_got := S (s_got s) |}
                                                                                            (* 54-59 *)
      end
  | AMain =>
      match s_main s with
      | MInit => Some (main_at MThread TStart (s_flag s) s)                                    (* 29-34 start *)
      | MThread => Some (main_at MRun (s_poll s) (s_flag s) s)                                (* 52 signal *)
      | MRun => Some (main_at MGone (s_poll s) (s_flag s) s)
      | MGone => match s_poll s with TStart | TWait | TDone => Some (main_at MJoin (s_poll s) true s) | _ => None end   (* 15-19: takes the mutex *)
      | MJoin => match s_poll s with TDone => Some (main_at MEnd (s_poll s) (s_flag s) s) | _ => None end      (* 21-23: join *)
      | MEnd => None
      end
  | APoll =>
      match s_poll s with
      | TStart => Some (go TPoll (s_mark s) [] s)                                                                                  (* 35 *)
      | TPoll => if s_mark s then Some (go TCall false [] s) else Some (go (if s_flag s then TDone else TWait) (s_mark s) [] s)   (* 37-47 *)
      | TWait => Some (go (if s_flag s then TDone else TPoll) (s_mark s) [] s)                                                     (* 44-46 *)
      | TCall => Some (go TNotify (s_mark s) [UShutdown (alive s)] s)                                                              (* main.cc:141-142 *)
      | TNotify => Some (go TDone (s_mark s) [UNotify (alive s)] s)
      | _ => None
      end
  end.
Fixpoint srun (s : sstate) (l : list sact) : option sstate :=
  match l with [] => Some s | a :: l' => match sstep s a with Some s' => srun s' l' | None => None end end.

(** ** Run modes and the exit code, main.cc:105-202 *)
(** The calls of the interface that a run makes. *)
Inductive call := KCampaignCheck | KCampaign (cmd id : string) | KSendData | KCheck | KDownload | KInstall | KCycle | KForever.
(** What they do.  An exception of a call ends the run; [download], [install]: did it succeed, as its result says? *)
Record answers := { r_campaign_check : res unit; r_campaign : res unit; r_data : res unit; r_check : res unit;
                    r_download : res bool; r_install : res bool; r_cycle : res bool; r_forever : res unit }.
(** The configuration can be read; the Secondaries can be initialized (None: not configured); Initialize; the file of --hwinfo-file (None: not given) is JSON. *)
Record startup := { u_config : bool; u_secondaries : option bool; u_init : bool; u_hwinfo : option bool }.

(** 163-196: the calls made and whether it ends without exception; [mode] is empty if not given. *)
Definition seq (k : call) (r : res unit) (next : list call * bool) : list call * bool :=
  match r with Ok _ => (k :: fst next, snd next) | Throw _ => ([k], false) end.
Definition drop {A} (r : res A) : res unit := match r with Ok _ => Ok tt | Throw e => Throw e end.
Definition run_mode (mode : string) (id : option string) (a : answers) : list call * bool :=
  if String.eqb mode "campaign_check" then seq KCampaignCheck (r_campaign_check a) ([], true)
  else if (String.eqb mode "campaign_accept" || String.eqb mode "campaign_decline" || String.eqb mode "campaign_postpone")%bool then
    match id with None => ([], false) | Some i => seq (KCampaign mode i) (r_campaign a) ([], true) end
  else if String.eqb mode "check" then seq KSendData (r_data a) (seq KCheck (r_check a) ([], true))
  else if String.eqb mode "download" then seq KCheck (r_check a) (seq KDownload (drop (r_download a)) ([], true))
  else if String.eqb mode "install" then seq KCheck (r_check a) (seq KInstall (drop (r_install a)) ([], true))
  else if String.eqb mode "once" then seq KSendData (r_data a) (seq KCycle (drop (r_cycle a)) ([], true))
  else ([KForever], true).                                                                   (* 188-193: the exception is logged *)
Definition program (u : startup) (mode : string) (id : option string) (a : answers) : list call * bool :=
  if negb (u_config u) then ([], false) else
  if match u_secondaries u with Some false => true | _ => false end then ([], false) else
  if negb (u_init u) then ([], false) else
  if match u_hwinfo u with Some false => true | _ => false end then ([], false) else
  run_mode mode id a.

(** ** The C interface, libaktualizr-c.cc *)
(** Functions that return 0 unless there is an exception: 28-36, 38-46, 59-69, 85-113, 187-195. *)
Definition c_plain {A} (r : res A) : Z := match r with Ok _ => 0 | Throw _ => -1 end.
(** 155-163, 165-173: Download and Install; the result is not looked at. *)
Definition c_download (r : res bool) : Z := c_plain r.
Definition c_install (r : res bool) : Z := c_plain r.
(** 175-184 *)
Definition c_send_manifest (r : res bool) : Z := match r with Ok true => 0 | _ => -1 end.
(** 117-125: a list of updates or a null pointer. *)
Definition c_updates_check {A} (r : res (list A)) : option (list A) := match r with Ok [] => None | Ok l => Some l | Throw _ => None end.
(** 129, 131-142 *)
Definition c_targets_num {A} (u : option (list A)) : nat := match u with Some l => List.length l | None => 0 end.
Definition c_nth_target {A} (u : option (list A)) (n : nat) : option A := match u with Some l => nth_error l n | None => None end.
(** 71-83 *)
Definition c_campaigns_check {A} (r : res (list A)) : option A := match r with Ok (x :: _) => Some x | _ => None end.
(** 236-262: Pause and Resume; aktualizr.cc:159-175: the second call tells that nothing changed. *)
Inductive pause_status := PSuccess | PAlreadyPaused | PAlreadyRunning.
Definition c_pause (paused : bool) : pause_status * bool := if paused then (PAlreadyPaused, true) else (PSuccess, true).
Definition c_resume (paused : bool) : pause_status * bool := if paused then (PSuccess, false) else (PAlreadyRunning, false).
