(** What the broker sees of a worker that has ended (broker/src/worker.rs:70-82,
    broker/src/linux/ipc_loop.rs:14-56), while other threads of the program start programs
    of their own. See [worker_new] in ProcessModel for the call alone. *)
From stdpp Require Import prelude gmap.
From Coq Require Import Strings.Byte.
From Verif Require Import Bytes PolicyModel LinuxPolicyModel FdModel ChannelModel BrokerModel
  SeccompModel EntryModel ProcessModel StartRaceModel.
Local Open Scope N_scope.

(** When another program is started: before socketpair(2) (broker/src/worker.rs:19),
    before fcntl(2) (line 34), before the broker drops the worker's end of the channel
    (line 77; this includes the whole of Process::new), or later. *)
Inductive stage := BeforeSockets | BeforeInheritable | BeforeDrop | AfterDrop.

(** The broker's table then; the error pipe of Process::new is left out. After the call
    the table is that of the program, in which the worker's end is not installed again. *)
Definition stage_table (ne : new_env) (t : fdtab) (s : stage) : fdtab :=
  match ne_sockets ne with
  | Err _ => t
  | Ok (fb, fw) =>
      match install2 (pe_limit (ne_proc ne)) fb fw t with
      | None => t
      | Some (ch, wh, t1) =>
          let t2 := match handle_set_inheritable wh true t1 with Done t2 => t2 | _ => t1 end in
          match s with
          | BeforeSockets => t
          | BeforeInheritable => t1
          | BeforeDrop => t2
          | AfterDrop => delete wh t2
          end
      end
  end.

(** A process with this table holds the open file. *)
Definition has_file (f : N) (t : fdtab) : bool :=
  existsb (λ x : N * fdent, fd_file x.2 =? f) (map_to_list t).

(** recvmsg(2) on the broker's end, once all datagrams are taken and the worker has
    ended: it returns when nobody has the worker's end any more, otherwise it waits. *)
Definition nobody_left (ne : new_env) (t : fdtab) (broker : fdtab) (others : list stage) : bool :=
  match ne_sockets ne with
  | Err _ => true
  | Ok (_, fw) =>
      negb (has_file fw broker || existsb (λ s, keeps fw (stage_table ne t s)) others)
  end.

(** broker/src/worker.rs:18-85 with a worker that sends [sent] and then ends, whatever
    ends it. The programs in [others] run on. [reset] is None for end of file, or an errno
    (ECONNRESET when the worker left replies unread). *)
Definition last_event (reset : option N) : sock_event :=
  match reset with None => EvEof | Some e => EvError e end.
Definition worker_ended (ne : new_env) (c : config) (p : policy) (sent : list datagram)
  (reset : option N) (others : list stage) (t : fdtab) : worker_out :=
  let out := worker_new ne c p (EvDatagram <$> sent) t in
  match wo_result out with
  | WnWaiting | WnOk _ Serving =>
      if nobody_left ne t (wo_tab out) others
      then worker_new ne c p ((EvDatagram <$> sent) ++ [last_event reset]) t
      else out
  | _ => out
  end.
