(** Model of the rest of src/pcsc.c: pcsc_init and pcsc_release with the memory and the PC/SC context they hold, the reader
    count and the state of a reader.  malloc and calloc never fail, and give a block for size 0 too.  Messages on stderr are
    not modelled. *)
From Verif Require Import Base PcscModel.

(** The heap: the number of the next block and the blocks not yet freed. *)
Record heap := mkHeap { h_next : nat; h_live : list nat }.
Definition alloc (h : heap) : nat * heap := (h_next h, mkHeap (S (h_next h)) (h_next h :: h_live h)).
(** free: undefined for anything but a live block. *)
Definition free (h : heap) (p : nat) : out heap :=
  if in_dec Nat.eq_dec p (h_live h) then Ret (mkHeap (h_next h) (remove Nat.eq_dec p (h_live h))) else UB.
(** "if (p) free(p)" *)
Definition free_opt (h : heap) (p : option nat) : out heap := match p with Some p => free h p | None => Ret h end.

(** The service: SCardEstablishContext (result, context), SCardListReaders without buffer (result, size) and with a buffer of
    a size (result, octets written), SCardReleaseContext, and the calls for each reader (PcscModel.v). *)
Record psvc (St : Type) := mkPsvc {
  ps_establish : St -> (Z * Z) * St;
  ps_size : St -> Z -> (Z * nat) * St;
  ps_list : St -> Z -> nat -> (Z * list Z) * St;
  ps_release : St -> Z -> Z * St;
  ps_reader : nat -> svc St }.
Arguments ps_establish {St}. Arguments ps_size {St}. Arguments ps_list {St}. Arguments ps_release {St}. Arguments ps_reader {St}. Arguments mkPsvc {St}.
(** The calls that concern the context. *)
Inductive ccall := Established (h : Z) | Released (h : Z).

(** struct pcsc_t, pcsc.c:43-52: its block, the context (0 until established), the three blocks, what reader_strings holds,
    the offsets of the names in it (reader_count is their number) and the features of each reader. *)
Record pcsc := mkPcsc { pc_self : nat; pc_context : Z; pc_strings : option nat; pc_readers : option nat; pc_states : option nat;
  pc_text : list Z; pc_names : list nat; pc_features : list features }.

(** pcsc.c:366-400 [pcsc_release]; the new *ctx is NULL *)
Definition pcsc_release {St} (sv : psvc St) (ctx : option pcsc) (h : heap) (s : St) : out (heap * St * list ccall) :=
  match ctx with
  | None => Ret (h, s, [])
  | Some p =>
    let '(_, s) := ps_release sv s (pc_context p) in
    let* h := free_opt h (pc_strings p) in
    let* h := free_opt h (pc_readers p) in
    let* h := free_opt h (pc_states p) in
    let* h := free h (pc_self p) in
    Ret (h, s, [Released (pc_context p)])
  end.
(** pcsc.c:168-172 *)
Fixpoint populate_all {St} (sv : psvc St) (k n : nat) (s : St) : out (list features * St) :=
  match n with
  | O => Ret ([], s)
  | S n =>
    let* (_, f, s) := populate_features (ps_reader sv k) feat0 s in
    let* (fs, s) := populate_all sv (S k) n s in
    Ret (f :: fs, s)
  end.
(** pcsc.c:101-175 [pcsc_init] with a ctx that is not NULL; [junk n] is what a new block of n octets holds. *)
Definition pcsc_init {St} (sv : psvc St) (junk : nat -> list Z) (h : heap) (s : St) : out (Z * option pcsc * heap * St * list ccall) :=
  let (self, h) := alloc h in
  let fail p h s calls := let* (h, s, c) := pcsc_release sv (Some p) h s in Ret (-1, None, h, s, calls ++ c) in
  let '((res, cx), s) := ps_establish sv s in
  if negb (res =? SCARD_S_SUCCESS) then fail (mkPcsc self 0 None None None [] [] []) h s [] else
  let '((res, size), s) := ps_size sv s cx in
  if negb (res =? SCARD_S_SUCCESS) then fail (mkPcsc self cx None None None [] [] []) h s [Established cx] else
  let (strings, h) := alloc h in
  let '((res, d), s) := ps_list sv s cx size in
  let* text := put (junk size) 0 d in
  if negb (res =? SCARD_S_SUCCESS) then fail (mkPcsc self cx (Some strings) None None text [] []) h s [Established cx] else
  let* names := init_readers text in
  let (readers, h) := alloc h in
  let (states, h) := alloc h in
  let* (fs, s) := populate_all sv 0 (length names) s in
  Ret (0, Some (mkPcsc self cx (Some strings) (Some readers) (Some states) text names fs), h, s, [Established cx]).
(** pcsc.c:402-412 [pcsc_get_reader_count] *)
Definition pcsc_get_reader_count (ctx : option pcsc) : Z := match ctx with None => 0 | Some p => Zlen (pc_names p) end.
(** pcsc.c:565-597 [pcsc_reader_get_state]; [change] is SCardGetStatusChange for the one reader with the name at [off] and the
    current state SCARD_STATE_UNAWARE, 0.  The result is the value returned and *state. *)
Definition pcsc_reader_get_state {St} (change : St -> nat -> Z -> (Z * Z) * St) (off : nat) (s : St) (state : Z) : Z * Z * St :=
  let '((res, ev), s) := change s off 0 in
  if negb (res =? SCARD_S_SUCCESS) then (-1, state, s) else (0, ev, s).
