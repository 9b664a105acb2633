(** Signals that arrive while a thread waits for the channel: the broker's thread in
    ipc_loop.rs:14 and 46, the program's thread in lockdown.rs:300. Neither end looks at EINTR
    or blocks signals. *)
From stdpp Require Import prelude gmap.
From Coq Require Import Strings.Byte.
From Verif Require Import Bytes PolicyModel PostcardModel FdModel ChannelModel BrokerModel
  WorkerModel WorkerProps.
Local Open Scope N_scope.

(** What the process does with a signal: nothing, or it runs a handler that was installed with
    or without SA_RESTART. *)
Inductive disposition := SigIgnored | SigRestart | SigPlain.
(** signal(7): only a handler without SA_RESTART interrupts recvmsg(2). *)
Definition interrupts (d : disposition) : bool :=
  match d with SigPlain => true | _ => false end.
Definition EINTR : N := 4.

(** ipc/src/linux/channel.rs:142-153. The waits of the broker: the signals that its thread gets
    during the wait, and what then arrives on the socket. An interrupted recvmsg fails and leaves
    the datagram where it is. *)
Definition delivered (waits : list (list disposition * sock_event)) : list sock_event :=
  concat (map (λ w, if existsb interrupts w.1 then [EvError EINTR; w.2] else [w.2]) waits).

(** lockdown.rs:198-303. One trapped call; [sigs] are the signals the thread gets during the
    wait of each exchange with the broker, in order. The exchange that is interrupted panics
    (300-301), and with it the handler. *)
Definition trap_signals (sigs : list (list disposition)) (env : wenv) (r : regs) (w : world)
  : hres Z :=
  let '(res, w') := trap env r w in
  let exchanges := (length (w_sent w') - length (w_sent w))%nat in
  if existsb (existsb interrupts) (take exchanges sigs) then HPanic else res.
(** The same once the broker's thread has ended and with it its end of the channel: the first
    exchange panics (298-299, sendmsg gives EPIPE). *)
Definition trap_orphan (env : wenv) (r : regs) (w : world) : hres Z :=
  let '(res, w') := trap env r w in
  if bool_decide (length (w_sent w') = length (w_sent w)) then res else HPanic.
