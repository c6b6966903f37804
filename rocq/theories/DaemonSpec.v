(** What should happen when the daemon starts, runs and stops: the order of the calls that can
    fail, what each failure leads to, and which events end the daemon. *)
From Verif Require Import Common DaemonModel.

(** ** The calls of a start in their order; [stored]: a checkpoint file could be read *)
Definition only (b : bool) (l : list call) : list call := if b then l else [].
Definition sequence (cfg : config) (stored : bool) : list call :=
  only (c_key cfg) [CIdentity] ++ [CLoop; CSig; CInt; CIntInit; CIntStart; CTerm; CTermInit; CTermStart] ++
  [CPool; CPoolEc; CPoolPriv; CPoolPub; CAgentMem] ++ only (c_key cfg) [CPoolKey] ++ [CSize; CAgent] ++
  [CNs; CNsEc; CNsIp] ++ only (c_key cfg) [CNsKey] ++
  [CRs; CUb; CUbAsync; CRsEc; CStub] ++ only (c_rsconf cfg) [CRsConfig] ++ only (c_key cfg) [CRsKey] ++
  only (c_check cfg) [CInject] ++ only (c_prefix cfg) [CExists; CLength] ++ only (c_prefix cfg && stored) [CFile] ++
  [CTimer; CTimerInit; CTimerStart] ++ [CNsMem; CNsInit; CNsBind; CNsSend; CNsRecv; CNsStart] ++
  [CRsOptions; CRsMem; CRsInit; CRsBind; CRsSend; CRsRecv; CRsStart; CWork; CWorkQueue; CWorkPending; CWorkAsync; CWorkQuit; CThread].
Definition first_failure (ok : call -> bool) (l : list call) : option call := find (fun c => negb (ok c)) l.

(** ** What the first failure leads to *)
Inductive fate :=
| Undefined                           (* memory that was never written is used *)
| Stops (code : Z) (left : list obj)  (* the program exits; [left] are closed and never freed *)
| Unwinds (code : Z).                 (* everything is closed and freed by the loop, then the program exits *)
Definition fate_of (c : call) : fate :=
  match c with
  | CIdentity | CLoop | CSig => Stops 3 []
  | CInt | CIntInit | CIntStart => Undefined
  | CTerm | CTermInit => Stops 3 [OInt]
  | CTermStart => Stops 3 [OInt; OTerm]
  | CPoolEc | CPoolPriv | CPoolPub | CAgentMem => Undefined
  | CPool | CNs | CNsEc | CRs | CUb | CUbAsync | CRsEc | CStub => Stops 1 [OInt; OTerm]
  | CPoolKey | CSize | CAgent | CNsIp | CNsKey | CRsConfig | CRsKey => Stops 3 [OInt; OTerm]
  | CInject | CExists | CLength | CRead | CFile | CTimer | CTimerInit => Undefined
  | CNsMem | CRsMem => Unwinds 1
  | CNsInit | CRsInit | CWorkQueue | CWorkPending | CWorkAsync => Undefined
  | CTimerStart | CNsBind | CNsSend | CNsRecv | CNsStart | CRsOptions | CRsBind | CRsSend | CRsRecv | CRsStart | CWork | CWorkQuit | CThread
  | CNsStop | CTimerStop => Unwinds 3
  end.

(** ** What is left *)
Definition freed (w : world) (o : obj) : Prop := w_st w o = Absent \/ w_st w o = Gone.
Definition all_freed (w : world) : Prop := forall o, freed w o.
Definition left_closed (l : list obj) (w : world) : Prop := forall o, (In o l -> w_st w o = Closing) /\ (~ In o l -> freed w o).
(** Everything is made, and every handle is started *)
Definition serving (w : world) : Prop :=
  (forall o, In o [OInt; OTerm; OTimer; ONsSock; ORsSock] -> w_st w o = Active) /\ (forall o, In o [OSig; OPool; ONs; ORs; OWorker; OUb] -> w_st w o = Live).

(** ** The events that end the daemon: a signal, then the end of the worker, then the loop *)
Definition is_signal (e : event) : Prop := exists i, e = ESignal i.
Definition ended (es : list event) : Prop := exists a i b c d, es = a ++ ESignal i :: b ++ EQuit :: c ++ EReap :: d.
