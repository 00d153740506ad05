(** Interaction trees for host calls.

    The crate never touches memory, ports or time itself: every effect is a call of a method of the
    user's [Clock], [Memory] and [Io] implementations (src/host.rs).  A piece of CPU code is therefore
    modelled as a tree of such calls, each with a continuation receiving the answer.  [run] executes a
    tree against an arbitrary host. *)
From Coq Require Import ZArith Bool List.
From Verif Require Import Base Flags Parse.
Import ListNotations.
Open Scope Z_scope.

(** [TS]: [Clock::Timestamp]; [WB]: [Io::WrIoBreak]; [RB]: [Io::RetiBreak].
    Wait states ([NonZeroU16]) are [Z]. *)
Inductive prog (TS WB RB A : Type) : Type :=
| Ret (a : A)
(** a panic ([unreachable!], [unwrap] on [None], [debug_assert!]) or release-mode UB *)
| Stuck
(** host.rs:174-222 Clock *)
| IsPastLimit (k : bool -> prog TS WB RB A)
| AddIrq (pc : Z) (k : TS -> prog TS WB RB A)
| AddNoMreq (addr n : Z) (k : prog TS WB RB A)
| AddM1 (addr : Z) (k : TS -> prog TS WB RB A)
| AddMreq (addr : Z) (k : TS -> prog TS WB RB A)
| AddIo (port : Z) (k : TS -> prog TS WB RB A)
| AddWait (bus ws : Z) (k : prog TS WB RB A)
| AsTs (k : TS -> prog TS WB RB A)
(** host.rs:227-312 Io *)
| ReadIo (port : Z) (ts : TS) (k : Z -> option Z -> prog TS WB RB A)
| WriteIo (port data : Z) (ts : TS) (k : option WB -> option Z -> prog TS WB RB A)
| IsIrq (ts : TS) (k : bool -> prog TS WB RB A)
| IrqData (pc : Z) (ts : TS) (k : Z -> option Z -> prog TS WB RB A)
| Reti (pc : Z) (ts : TS) (k : option RB -> prog TS WB RB A)
(** host.rs:319-385 Memory *)
| ReadMem (addr : Z) (ts : TS) (k : Z -> prog TS WB RB A)
| ReadMem16 (addr : Z) (ts : TS) (k : Z -> prog TS WB RB A)
| ReadOpcode (pc ir : Z) (ts : TS) (k : Z -> prog TS WB RB A)
| WriteMem (addr v : Z) (ts : TS) (k : prog TS WB RB A)
| ReadDebug (addr : Z) (k : Z -> prog TS WB RB A)
(** the call of the user's [debug] closure *)
| Debug (d : CpuDebug) (k : prog TS WB RB A).
Arguments Ret {TS WB RB A}. Arguments Stuck {TS WB RB A}.
Arguments IsPastLimit {TS WB RB A}. Arguments AddIrq {TS WB RB A}. Arguments AddNoMreq {TS WB RB A}.
Arguments AddM1 {TS WB RB A}. Arguments AddMreq {TS WB RB A}. Arguments AddIo {TS WB RB A}.
Arguments AddWait {TS WB RB A}. Arguments AsTs {TS WB RB A}. Arguments ReadIo {TS WB RB A}.
Arguments WriteIo {TS WB RB A}. Arguments IsIrq {TS WB RB A}. Arguments IrqData {TS WB RB A}.
Arguments Reti {TS WB RB A}. Arguments ReadMem {TS WB RB A}. Arguments ReadMem16 {TS WB RB A}.
Arguments ReadOpcode {TS WB RB A}. Arguments WriteMem {TS WB RB A}. Arguments ReadDebug {TS WB RB A}.
Arguments Debug {TS WB RB A}.

(** Sequencing. *)
Fixpoint pbind {TS WB RB A B : Type} (p : prog TS WB RB A) (f : A -> prog TS WB RB B)
  : prog TS WB RB B :=
  match p with
  | Ret a => f a
  | Stuck => Stuck
  | IsPastLimit k => IsPastLimit (fun x => pbind (k x) f)
  | AddIrq a k => AddIrq a (fun x => pbind (k x) f)
  | AddNoMreq a n k => AddNoMreq a n (pbind k f)
  | AddM1 a k => AddM1 a (fun x => pbind (k x) f)
  | AddMreq a k => AddMreq a (fun x => pbind (k x) f)
  | AddIo a k => AddIo a (fun x => pbind (k x) f)
  | AddWait a n k => AddWait a n (pbind k f)
  | AsTs k => AsTs (fun x => pbind (k x) f)
  | ReadIo a t k => ReadIo a t (fun x y => pbind (k x y) f)
  | WriteIo a v t k => WriteIo a v t (fun x y => pbind (k x y) f)
  | IsIrq t k => IsIrq t (fun x => pbind (k x) f)
  | IrqData a t k => IrqData a t (fun x y => pbind (k x y) f)
  | Reti a t k => Reti a t (fun x => pbind (k x) f)
  | ReadMem a t k => ReadMem a t (fun x => pbind (k x) f)
  | ReadMem16 a t k => ReadMem16 a t (fun x => pbind (k x) f)
  | ReadOpcode a i t k => ReadOpcode a i t (fun x => pbind (k x) f)
  | WriteMem a v t k => WriteMem a v t (pbind k f)
  | ReadDebug a k => ReadDebug a (fun x => pbind (k x) f)
  | Debug d k => Debug d (pbind k f)
  end.

(** ** Hosts

    A host is any implementation of [Clock] (state [CK]) and [Memory]+[Io] (state [BS]).  Methods
    taking [&self] are also allowed to change the state (interior mutability). *)
Record host (TS WB RB BS CK : Type) := mkHost {
  h_is_past_limit : CK -> bool;
  h_add_irq : CK -> Z -> CK * TS;
  h_add_no_mreq : CK -> Z -> Z -> CK;
  h_add_m1 : CK -> Z -> CK * TS;
  h_add_mreq : CK -> Z -> CK * TS;
  h_add_io : CK -> Z -> CK * TS;
  h_add_wait : CK -> Z -> Z -> CK;
  h_as_ts : CK -> TS;
  h_read_io : BS -> Z -> TS -> BS * (Z * option Z);
  h_write_io : BS -> Z -> Z -> TS -> BS * (option WB * option Z);
  h_is_irq : BS -> TS -> BS * bool;
  h_irq_data : BS -> Z -> TS -> BS * (Z * option Z);
  h_reti : BS -> Z -> TS -> BS * option RB;
  h_read_mem : BS -> Z -> TS -> BS * Z;
  h_read_mem16 : BS -> Z -> TS -> BS * Z;
  h_read_opcode : BS -> Z -> Z -> TS -> BS * Z;
  h_write_mem : BS -> Z -> Z -> TS -> BS;
  h_read_debug : BS -> Z -> BS * Z
}.
Arguments mkHost {TS WB RB BS CK}.
Arguments h_is_past_limit {TS WB RB BS CK}. Arguments h_add_irq {TS WB RB BS CK}.
Arguments h_add_no_mreq {TS WB RB BS CK}. Arguments h_add_m1 {TS WB RB BS CK}.
Arguments h_add_mreq {TS WB RB BS CK}. Arguments h_add_io {TS WB RB BS CK}.
Arguments h_add_wait {TS WB RB BS CK}. Arguments h_as_ts {TS WB RB BS CK}.
Arguments h_read_io {TS WB RB BS CK}. Arguments h_write_io {TS WB RB BS CK}.
Arguments h_is_irq {TS WB RB BS CK}. Arguments h_irq_data {TS WB RB BS CK}.
Arguments h_reti {TS WB RB BS CK}. Arguments h_read_mem {TS WB RB BS CK}.
Arguments h_read_mem16 {TS WB RB BS CK}. Arguments h_read_opcode {TS WB RB BS CK}.
Arguments h_write_mem {TS WB RB BS CK}. Arguments h_read_debug {TS WB RB BS CK}.

(** Execution against a host.  The result is [None] when the code gets stuck, otherwise the returned
    value, the final bus and clock states and the list of [CpuDebug] values handed to the debugger.
    Values of type [u8]/[u16] returned by the host are wrapped ([Rust] types guarantee their range). *)
Fixpoint run {TS WB RB BS CK A : Type} (Hs : host TS WB RB BS CK) (p : prog TS WB RB A)
    (b : BS) (c : CK) : option (A * BS * CK * list CpuDebug) :=
  match p with
  | Ret a => Some (a, b, c, [])
  | Stuck => None
  | IsPastLimit k => run Hs (k (h_is_past_limit Hs c)) b c
  | AddIrq a k => let (c', t) := h_add_irq Hs c a in run Hs (k t) b c'
  | AddNoMreq a n k => run Hs k b (h_add_no_mreq Hs c a n)
  | AddM1 a k => let (c', t) := h_add_m1 Hs c a in run Hs (k t) b c'
  | AddMreq a k => let (c', t) := h_add_mreq Hs c a in run Hs (k t) b c'
  | AddIo a k => let (c', t) := h_add_io Hs c a in run Hs (k t) b c'
  | AddWait a n k => run Hs k b (h_add_wait Hs c a n)
  | AsTs k => run Hs (k (h_as_ts Hs c)) b c
  | ReadIo a t k => let (b', r) := h_read_io Hs b a t in run Hs (k (u8 (fst r)) (snd r)) b' c
  | WriteIo a v t k => let (b', r) := h_write_io Hs b a v t in run Hs (k (fst r) (snd r)) b' c
  | IsIrq t k => let (b', r) := h_is_irq Hs b t in run Hs (k r) b' c
  | IrqData a t k => let (b', r) := h_irq_data Hs b a t in run Hs (k (u8 (fst r)) (snd r)) b' c
  | Reti a t k => let (b', r) := h_reti Hs b a t in run Hs (k r) b' c
  | ReadMem a t k => let (b', v) := h_read_mem Hs b a t in run Hs (k (u8 v)) b' c
  | ReadMem16 a t k => let (b', v) := h_read_mem16 Hs b a t in run Hs (k (u16 v)) b' c
  | ReadOpcode a i t k => let (b', v) := h_read_opcode Hs b a i t in run Hs (k (u8 v)) b' c
  | WriteMem a v t k => run Hs k (h_write_mem Hs b a v t) c
  | ReadDebug a k => let (b', v) := h_read_debug Hs b a in run Hs (k (u8 v)) b' c
  | Debug d k =>
      match run Hs k b c with
      | Some (a, b', c', ds) => Some (a, b', c', d :: ds)
      | None => None
      end
  end.

(** Weakest precondition: whatever (well-typed) answers the host gives, the tree does not get stuck and
    its result satisfies [P]. *)
Fixpoint wp {TS WB RB A : Type} (p : prog TS WB RB A) (P : A -> Prop) : Prop :=
  match p with
  | Ret a => P a
  | Stuck => False
  | IsPastLimit k => forall x, wp (k x) P
  | AddIrq _ k => forall t, wp (k t) P
  | AddNoMreq _ _ k => wp k P
  | AddM1 _ k => forall t, wp (k t) P
  | AddMreq _ k => forall t, wp (k t) P
  | AddIo _ k => forall t, wp (k t) P
  | AddWait _ _ k => wp k P
  | AsTs k => forall t, wp (k t) P
  | ReadIo _ _ k => forall v w, byte v -> wp (k v w) P
  | WriteIo _ _ _ k => forall v w, wp (k v w) P
  | IsIrq _ k => forall x, wp (k x) P
  | IrqData _ _ k => forall v w, byte v -> wp (k v w) P
  | Reti _ _ k => forall x, wp (k x) P
  | ReadMem _ _ k => forall v, byte v -> wp (k v) P
  | ReadMem16 _ _ k => forall v, word v -> wp (k v) P
  | ReadOpcode _ _ _ k => forall v, byte v -> wp (k v) P
  | WriteMem _ _ _ k => wp k P
  | ReadDebug _ k => forall v, byte v -> wp (k v) P
  | Debug _ k => wp k P
  end.
