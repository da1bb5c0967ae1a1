(** Independent specification of answers to reset (ISO 7816-3, EMV Contact Interface
    8.3), without reference to the model. *)
From Verif Require Import Base DolSpec.

(** The interface bytes TAi, TBi, TCi, TDi for one i. *)
Record group := mkGroup { gA : option Z; gB : option Z; gC : option Z; gD : option Z }.
Definition oct (o : option Z) : list Z := match o with Some b => [b] | None => [] end.
Definition goctets (g : group) : list Z := oct (gA g) ++ oct (gB g) ++ oct (gC g) ++ oct (gD g).

(** Yi, the high nibble of [y] (T0 or TDi), tells which are present. *)
Definition matches (y : Z) (g : group) : Prop :=
  (gA g <> None <-> Z.testbit y 4 = true) /\ (gB g <> None <-> Z.testbit y 5 = true) /\
  (gC g <> None <-> Z.testbit y 6 = true) /\ (gD g <> None <-> Z.testbit y 7 = true).
Inductive groups : Z -> list group -> Prop :=
| groups_last y g : matches y g -> gD g = None -> groups y [g]
| groups_more y g t gs : matches y g -> gD g = Some t -> groups t gs -> groups y (g :: gs).

(** TS T0 interface-bytes historical-bytes TCK; octets after that in [rest]. *)
Definition layout (atr : list Z) (ts t0 : Z) (gs : list group) (hist tck rest : list Z) : Prop :=
  atr = ts :: t0 :: flat_map goctets gs ++ hist ++ tck ++ rest /\ groups t0 gs /\ Zlen hist = t0 mod 16.

(** TD4 is indicated. *)
Definition td4 (atr : list Z) : Prop :=
  exists ts t0 g1 g2 g3 t1 t2 t3 r, atr = ts :: t0 :: goctets g1 ++ goctets g2 ++ goctets g3 ++ r /\
    matches t0 g1 /\ gD g1 = Some t1 /\ matches t1 g2 /\ gD g2 = Some t2 /\ matches t2 g3 /\ gD g3 = Some t3 /\ Z.testbit t3 7 = true.

(** Interface bytes by number (1..). *)
Definition byte_of (f : group -> option Z) (i : nat) (gs : list group) : option Z :=
  match nth_error gs (i - 1) with Some g => f g | None => None end.
Definition dflt (o : option Z) (d : Z) : Z := match o with Some b => b | None => d end.
(** Protocol indicated by TDi. *)
Definition prot (t : Z) : Z := t mod 16.
(** The groups from the third on with the protocol that the TD before indicates. *)
Fixpoint tagged (prev : option Z) (gs : list group) : list (Z * group) :=
  match gs, prev with
  | g :: gs', Some t => (prot t, g) :: tagged (gD g) gs'
  | _, _ => []
  end.
Definition specific (gs : list group) : list (Z * group) :=
  match gs with _ :: g2 :: gs' => tagged (gD g2) gs' | _ => [] end.
(** The first TA/TB/TC (i > 2) for protocol [t]. *)
Fixpoint first_for (f : group -> option Z) (t : Z) (l : list (Z * group)) : option Z :=
  match l with
  | [] => None
  | (u, g) :: l' => match (if u =? t then f g else None) with Some b => Some b | None => first_for f t l' end
  end.

(** TCK is present unless only T=0 is indicated. *)
Definition tck_required (gs : list group) : Prop := exists g t, In g gs /\ gD g = Some t /\ prot t <> 0.
Fixpoint xors (l : list Z) : Z := match l with [] => 0 | b :: l' => Z.lxor b (xors l') end.

(** ISO 7816-3:2006 table 7: FI, Fi, f(max) in 0.1 MHz, and table 8: DI, Di. *)
Definition table7 : list (Z * (Z * Z)) :=
  [(0,(372,40)); (1,(372,50)); (2,(558,60)); (3,(744,80)); (4,(1116,120)); (5,(1488,160)); (6,(1860,200));
   (9,(512,50)); (10,(768,75)); (11,(1024,100)); (12,(1536,150)); (13,(2048,200))].
Definition table8 : list (Z * Z) := [(1,1); (2,2); (3,4); (4,8); (5,16); (6,32); (7,64); (8,12); (9,20)].

(** Interface bytes with values that are not reserved. *)
Definition iso_valid (gs : list group) : Prop :=
  (forall b, byte_of gA 1 gs = Some b -> (exists f, In (b / 16, f) table7) /\ exists d, In (b mod 16, d) table8) /\
  (forall b, byte_of gB 1 gs = Some b -> b = 0 \/ 5 <= b mod 32 <= 25 /\ (b / 32) mod 4 <= 2) /\
  (forall b, byte_of gD 1 gs = Some b -> prot b = 0 \/ prot b = 1) /\
  (forall b, byte_of gB 2 gs = Some b -> 50 <= b <= 250 /\ byte_of gB 1 gs <> Some 0) /\
  (forall b, byte_of gC 2 gs = Some b -> b <> 0) /\
  (forall i b, (2 <= i)%nat -> byte_of gD i gs = Some b -> prot b = 0 \/ prot b = 1 \/ prot b = 15) /\
  (forall t g, In (t, g) (specific gs) ->
    (forall b, gA g = Some b -> (t = 15 -> 1 <= b mod 64 <= 7) /\ (t = 1 -> 1 <= b <= 254)) /\
    (forall b, gB g = Some b -> t = 1 -> b / 16 <= 9)).

(** Historical bytes: category indicator 00 or 80 announces COMPACT-TLV objects, for
    00 followed by three octets of status.  (At least one object, see C73.) *)
Definition compact (l : list Z) : Prop := exists objs, Forall ctlv_ok objs /\ l = flat_map (fun o => ctlv_enc (fst o) (snd o)) objs.
Definition hist_valid (nonempty : list Z -> Prop) (hist : list Z) : Prop :=
  match hist with
  | 0x00 :: l => exists objs si, l = objs ++ si /\ length si = 3%nat /\ compact objs /\ nonempty objs
  | 0x80 :: l => compact l /\ nonempty l
  | _ => True
  end.
Definition tck_valid (t0 : Z) (gs : list group) (hist tck : list Z) : Prop :=
  (tck_required gs /\ exists c, tck = [c] /\ xors (t0 :: flat_map goctets gs ++ hist ++ tck) = 0) \/
  (~ tck_required gs /\ tck = []).

(** ** Timing (ISO 7816-3:2006 8.3, 10.2, 11.2, 11.4.3; EMV 9.2.4.2.2), in etu *)
Definition is_rate (gs : list group) (Fi Di : Z) : Prop :=
  let b := dflt (byte_of gA 1 gs) 0x11 in (exists fm, In (b / 16, (Fi, fm)) table7) /\ In (b mod 16, Di) table8.
Definition par_N (gs : list group) : Z := dflt (byte_of gC 1 gs) 0.
Definition par_T (gs : list group) : Z := prot (dflt (byte_of gD 1 gs) 0).
Definition par_WI (gs : list group) : Z := dflt (byte_of gC 2 gs) 10.
Definition par_TB (gs : list group) : Z := dflt (first_for gB 1 (specific gs)) 0x4D.
Definition par_IFSI (gs : list group) : Z := dflt (first_for gA 1 (specific gs)) 0x20.
Definition par_EDC (gs : list group) : Z := dflt (first_for gC 1 (specific gs)) 0 mod 2.
Definition guard_time (gs : list group) : Z :=
  if par_N gs =? 255 then (if par_T gs =? 0 then 12 else 11) else 12 + par_N gs.
Definition char_guard_time (gs : list group) : Z := if par_N gs =? 255 then 11 else 12 + par_N gs.
Definition waiting_time (gs : list group) (Di : Z) : Z := par_WI gs * 960 * Di.
Definition char_waiting_time (gs : list group) : Z := 11 + 2 ^ (par_TB gs mod 16).
Definition block_waiting_time (gs : list group) (Fi Di : Z) : Z := 11 + 2 ^ (par_TB gs / 16) * 960 * 372 * Di / Fi.

(** At most one group (i > 2) is for T=1. *)
Definition one_T1 (gs : list group) : Prop :=
  forall a t1 b t2 c, specific gs = a ++ (1, t1) :: b ++ (1, t2) :: c -> False.

(** ** EMV Contact Interface 8.3.3 *)
Definition emv_rules (gs : list group) : Prop :=
  let t1 := prot (dflt (byte_of gD 1 gs) 0) in
  (* TA1: 11..13 in specific mode; at least 5 MHz and D at least 4 in negotiable mode *)
  (forall a, byte_of gA 1 gs = Some a -> byte_of gA 2 gs <> None -> 0x11 <= a <= 0x13) /\
  (forall a, byte_of gA 1 gs = Some a -> byte_of gA 2 gs = None ->
     (exists fi fm, In (a / 16, (fi, fm)) table7 /\ 50 <= fm) /\ exists d, In (a mod 16, d) table8 /\ 4 <= d) /\
  (* TC1 *)
  (forall c, byte_of gC 1 gs = Some c -> c = 0 \/ c = 255) /\
  (* TD1 *)
  (t1 = 0 \/ t1 = 1) /\
  (* TA2: the protocol of TD1, specific mode *)
  (forall a, byte_of gA 2 gs = Some a -> prot a = t1 /\ Z.testbit a 4 = false) /\
  (* TC2: only for T=0, value 0A *)
  (forall c, byte_of gC 2 gs = Some c -> t1 = 0 /\ c = 0x0A) /\
  (* TD2: T=15 after T=0, T=1 after T=1; needed for T=1 *)
  (forall d, byte_of gD 2 gs = Some d -> t1 = 0 -> prot d = 15) /\
  (t1 = 1 -> exists d, byte_of gD 2 gs = Some d /\ prot d = 1) /\
  (* TA3, TB3, TC3 for T=1 *)
  (t1 = 1 ->
    (forall a, byte_of gA 3 gs = Some a -> 0x10 <= a <= 0xFE) /\
    (exists b, byte_of gB 3 gs = Some b /\ b / 16 <= 4 /\ b mod 16 <= 5) /\
    (forall c, byte_of gC 3 gs = Some c -> c = 0)).

(** ** Status indicator (ISO 7816-4 8.1.1.3): the value of the last COMPACT-TLV object
    with tag 8, otherwise the octets after the objects for category 00. *)
Definition status_in (objs : list (Z * list Z)) (d : option (list Z)) : option (list Z) :=
  match find (fun o => fst o =? 8) (rev objs) with Some o => Some (snd o) | None => d end.
Definition status_spec (hist : list Z) (st : option (list Z)) : Prop :=
  match hist with
  | 0x00 :: l => exists objs si, Forall ctlv_ok objs /\ l = flat_map (fun o => ctlv_enc (fst o) (snd o)) objs ++ si /\ length si = 3%nat /\ st = status_in objs (Some si)
  | 0x80 :: l => exists objs, Forall ctlv_ok objs /\ l = flat_map (fun o => ctlv_enc (fst o) (snd o)) objs /\ st = status_in objs None
  | _ => st = None
  end.
