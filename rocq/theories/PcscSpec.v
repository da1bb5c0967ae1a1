(** Independent statements about PC/SC readers: what a property list, a
    feature list and a list of reader names are, what a contactless ATR looks
    like and what a well-behaved service is. *)
From Verif Require Import Base PcscModel BerSpec.

(** The property list of PC/SC part 10 section 2.6.14: tag, length, value. *)
Definition enc_props (es : list (Z * list Z)) : list Z :=
  flat_map (fun e => fst e :: Zlen (snd e) :: snd e) es.
(** [v] is the value of the first element with tag [p]. *)
Definition first_prop (p : Z) (es : list (Z * list Z)) (v : list Z) : Prop :=
  exists a b, es = a ++ (p, v) :: b /\ ~ In p (map fst a).

(** The feature list of PC/SC part 10 section 2.2: tag, length, four octets. *)
Record fentry := mkfe { fe_tag : Z; fe_len : Z; fe_code : list Z }.
Definition enc_features (es : list fentry) : list Z :=
  flat_map (fun e => fe_tag e :: fe_len e :: fe_code e) es.
Definition fentry_ok (e : fentry) : Prop := length (fe_code e) = 4%nat.

(** A reader's features as far as memory is concerned. *)
Definition feat_ok (f : features) : Prop :=
  length (f_buf f) = 264%nat /\ 0 <= f_buf_len f <= 264 /\
  length (f_pin f) = 4%nat /\ length (f_disp f) = 4%nat /\
  length (f_props f) = 264%nat /\ 0 <= f_props_len f <= 264.

(** A service that writes only into the buffers it is given. *)
Definition svc_ok {St} (sv : svc St) : Prop :=
  (forall s h c n, (length (snd (fst (sv_control sv s h c n))) <= n)%nat) /\
  (forall s h n, (length (snd (fst (sv_status sv s h n))) <= n)%nat) /\
  (forall s h p tx n, (length (snd (fst (sv_transmit sv s h p tx n))) <= n)%nat).

(** The list of names SCardListReaders gives: every name ended by a NUL, the
    list ended by another. *)
Definition multi_string (names : list (list Z)) : list Z :=
  flat_map (fun n => n ++ [0]) names ++ [0].
Definition is_name (n : list Z) : Prop := n <> [] /\ Forall (fun c => c <> 0) n.
(** The text at an offset of the list. *)
Definition text_at (buf : list Z) (off : nat) (t : list Z) : Prop :=
  exists a b, buf = a ++ t ++ 0 :: b /\ length a = off.

(** The ATR of PC/SC part 3 section 3.1.3.2.3.1: 3B 8n 80 01, n historical
    bytes and the check byte. *)
Definition contactless_atr (atr : list Z) : Prop :=
  exists hi hist tck, 8 <= hi < 16 /\ Zlen hist < 16 /\
    atr = 0x3B :: (hi * 16 + Zlen hist) :: 0x80 :: 0x01 :: hist ++ [tck].

(** A reader object as far as memory is concerned. *)
Definition reader_ok (r : reader) : Prop :=
  length (r_atr r) = 33%nat /\ 0 <= r_atr_len r <= 33 /\
  length (r_uid r) = 10%nat /\ 0 <= r_uid_len r <= 10.

(** A service together with whether the reader is held: a successful connect
    takes it, a successful disconnect gives it back. *)
Definition tracked {St} (sv : svc St) : svc (St * bool) :=
  mksvc
    (fun sb m => let '(x, s) := sv_connect sv (fst sb) m in
       (x, (s, if fst (fst x) =? 0 then true else snd sb)))
    (fun sb h c n => let '(x, s) := sv_control sv (fst sb) h c n in (x, (s, snd sb)))
    (fun sb h m => let '(x, s) := sv_disconnect sv (fst sb) h m in
       (x, (s, if x =? 0 then false else snd sb)))
    (fun sb h n => let '(x, s) := sv_status sv (fst sb) h n in (x, (s, snd sb)))
    (fun sb h p tx n => let '(x, s) := sv_transmit sv (fst sb) h p tx n in (x, (s, snd sb))).

(** The values SCardDisconnect is given. *)
Definition logging : svc (list (option Z)) :=
  mksvc (fun s m => ((1, 0, 0), s)) (fun s h c n => ((0, []), s))
    (fun s h m => (0, h :: s)) (fun s h n => ((0, 0, []), s))
    (fun s h p tx n => ((0, []), s)).
