(** Property theorem C112: the names of commands. *)
From Coq Require Import String.
From Verif Require Import Base TlvSpec TtlModel StrModel StrSpec CapduModel CapduSpec InsSpec InsProofs.
Open Scope Z_scope.
Open Scope list_scope.

(** C112: a description begins with the name that the standards give to the class and
    instruction; there is none for a command that they do not name. *)
Theorem C112_name : forall cla ins r str junk new, bytes (cla :: ins :: r) -> str <> [] ->
  emv_capdu_get_string (cla :: ins :: r) str junk = Ret (0, new) ->
  exists name s, command_name cla ins name /\ begins_with (lit name) s /\ shown str new s.
Proof. exact emv_says. Qed.
Print Assumptions C112_name.
Theorem C112_unnamed : forall cla ins r str junk res new, bytes (cla :: ins :: r) -> str <> [] ->
  (forall name, ~ command_name cla ins name) -> emv_capdu_get_string (cla :: ins :: r) str junk = Ret (res, new) -> res <> 0.
Proof. intros cla ins r str junk res new B NE N E ->. destruct (emv_says _ _ _ _ _ _ B NE E) as (name & s & C & _). exact (N name C). Qed.
Print Assumptions C112_unnamed.
(** Every command that the standards name is described by its name (three of them with
    more detail, see C77 and C79 and below). *)
Theorem C112_described : forall cla ins name r str junk, is_byte cla -> command_name cla ins name ->
  ~ In name ["SELECT"; "READ RECORD"; "PUT DATA"]%string -> ~ (128 <= cla /\ ins = 0xCA) -> (4 <= List.length str)%nat ->
  exists new, emv_capdu_get_string (cla :: ins :: r) str junk = Ret (0, new) /\ shown str new (lit name).
Proof.
  intros cla ins name r str junk B C NI NG L. apply named_text; auto. unfold own_text. destruct (existsb _ _) eqn:E; [|reflexivity].
  apply existsb_exists in E as (x & I & Q). apply String.eqb_eq in Q. subst x. contradiction.
Qed.
Print Assumptions C112_described.
(** GET DATA of EMV shows the tag, PUT DATA what P1-P2 refer to. *)
Theorem C112_get_data : forall cla p1 p2 r str junk, 128 <= cla < 255 -> is_byte p1 -> is_byte p2 -> (4 <= List.length str)%nat ->
  exists new, emv_capdu_get_string (cla :: 0xCA :: p1 :: p2 :: r) str junk = Ret (0, new) /\ shown str new (lit "GET DATA field " ++ hex_text [p1; p2]).
Proof. exact get_data_text. Qed.
Print Assumptions C112_get_data.
Theorem C112_put_data : forall cla ins p1 p2 data str junk, 0 <= cla < 128 -> ins = 0xDA \/ ins = 0xDB -> is_byte p1 -> is_byte p2 -> bytes data ->
  1 <= Zlen data <= 255 -> (4 <= List.length str)%nat ->
  exists new s, iso_capdu_get_string ([cla; ins; p1; p2] ++ [Zlen data] ++ data) str junk = Ret (true, new) /\ shown str new s /\
    put_text (if ins =? 0xDA then put_even p1 p2 else put_odd p1 p2) s.
Proof. exact put_data_exact. Qed.
Print Assumptions C112_put_data.
Example C112_ex : emv_capdu_get_string [0x84; 0x1E; 0; 0] (repeat 7 20) [] = Ret (0, lit "APPLICATION BLOCK" ++ repeat 0 3) /\
  emv_capdu_get_string [0x00; 0x1E; 0; 0] (repeat 7 4) [] = Ret (3, [0; 7; 7; 7]) /\
  emv_capdu_get_string [0x80; 0xCA; 0x9F; 0x36; 0] (repeat 7 22) [] = Ret (0, lit "GET DATA field 9F36" ++ [0; 7; 7]) /\
  emv_capdu_get_string [0x00; 0xDA; 0x9F; 0x36; 1; 0] (repeat 7 33) [] = Ret (0, lit "PUT DATA for BER-TLV field 9F36" ++ [0; 7]) /\
  emv_capdu_get_string [0x00; 0xDB; 0x3F; 0xFF; 1; 0] (repeat 7 24) [] = Ret (0, lit "PUT DATA for current DF" ++ [0]) /\
  (exists name, command_name 0x00 0xC0 name) /\ ~ (exists name, command_name 0x80 0xC0 name).
Proof.
  repeat (split; [vm_compute; reflexivity|]). split.
  - exists "GET RESPONSE"%string, [0xC0]. split; [left; reflexivity|]. repeat (first [left; reflexivity|right]).
  - intros (name & codes & I1 & I2). vm_compute in I2. repeat (destruct I2 as [Q|I2]; [injection Q as <- <-; vm_compute in I1; repeat (destruct I1 as [I1|I1]; [discriminate|]); exact I1|]). exact I2.
Qed.
