(** * StrategyFacts: what a driver does next depends on nothing but what the bus has answered.
    Every computation of the driver is [uniform]: built, for all buses alike, from single
    transactions at one I2C address and decisions on their results. *)
From Verif Require Import Base FloatOps Register Bus Camera Calc Driver BitFacts.

Section Uniform.
Context {ER EW : Type}.

(** A computation that runs on any bus. *)
Definition comp (X : Type) : Type :=
  forall B : Type, bus B ER EW -> world B ER EW -> X * world B ER EW.

Inductive uniform (a : Z) {X : Type} (Q : X -> Prop) : comp X -> Prop :=
| u_ret x : Q x -> uniform a Q (fun B bs w => (x, w))
| u_read wb buf (k : list Z -> option ER -> comp X) : Forall byte buf ->
    (forall data e, Forall byte data -> length data = length buf -> uniform a Q (k data e)) ->
    uniform a Q (fun B bs w => let '(data, e, w') := write_read bs a wb buf w in k data e B bs w')
| u_write bytes (k : option EW -> comp X) :
    (forall e, uniform a Q (k e)) ->
    uniform a Q (fun B bs w => let '(e, w') := bus_write bs a bytes w in k e B bs w')
| u_ext f g : (forall B bs w, f B bs w = g B bs w) -> uniform a Q f -> uniform a Q g.

Lemma uniform_bind a X Y (Q : X -> Prop) (Q' : Y -> Prop) (f : comp X) (k : X -> comp Y) :
  uniform a Q f -> (forall x, Q x -> uniform a Q' (k x)) ->
  uniform a Q' (fun B bs w => let '(x, w') := f B bs w in k x B bs w').
Proof.
  intros Hf Hk. induction Hf as [x Hx|wb buf k0 Hb _ IH|bytes k0 _ IH|f g E _ IH].
  - exact (Hk x Hx).
  - eapply u_ext; [|exact (u_read a Q' wb buf (fun data e B bs w => let '(x, w') := k0 data e B bs w in k x B bs w') Hb
                       (fun data e Hd Hl => IH data e Hd Hl))].
    intros B bs w. cbv beta. destruct (write_read bs a wb buf w) as [[data e] w']. reflexivity.
  - eapply u_ext; [|exact (u_write a Q' bytes (fun e B bs w => let '(x, w') := k0 e B bs w in k x B bs w')
                       (fun e => IH e))].
    intros B bs w. cbv beta. destruct (bus_write bs a bytes w) as [e w']. reflexivity.
  - eapply u_ext; [|exact IH]. intros B bs w. cbv beta. rewrite E. reflexivity.
Qed.

Lemma uniform_weaken a X (Q Q' : X -> Prop) (f : comp X) :
  (forall x, Q x -> Q' x) -> uniform a Q f -> uniform a Q' f.
Proof.
  intros HQ Hf. induction Hf as [x Hx|wb buf k0 Hb _ IH|bytes k0 _ IH|f g E _ IH].
  - apply u_ret. auto.
  - apply u_read; auto.
  - apply u_write; auto.
  - eapply u_ext; eassumption.
Qed.

Lemma clip_length buf out : length (clip buf out) = length buf.
Proof. unfold clip. rewrite firstn_length, app_length, map_length, skipn_length. lia. Qed.
Lemma clip_bytes buf out : Forall byte buf -> Forall byte (clip buf out).
Proof.
  intros H. unfold clip. apply Forall_forall. intros x Hx.
  assert (Hin : In x (map (fun b => b mod 256) out ++ skipn (length out) buf)).
  { rewrite <- (firstn_skipn (length buf) (map (fun b => b mod 256) out ++ skipn (length out) buf)).
    apply in_or_app. left. exact Hx. }
  apply in_app_or in Hin. destruct Hin as [Hin|Hin].
  - apply in_map_iff in Hin. destruct Hin as (b & <- & _). unfold byte. pose proof (Z.mod_pos_bound b 256). lia.
  - rewrite Forall_forall in H. apply H. rewrite <- (firstn_skipn (length out) buf). apply in_or_app. right. exact Hin.
Qed.
Lemma clip_same buf data : Forall byte data -> length data = length buf -> clip buf data = data.
Proof.
  intros Hd Hl. unfold clip. rewrite Hl, skipn_all2 by lia. rewrite app_nil_r.
  assert (E : map (fun b => b mod 256) data = data).
  { clear Hl. induction Hd as [|x l Hx _ IH]; [reflexivity|]. cbn [map]. rewrite IH. f_equal.
    unfold byte in Hx. apply Z.mod_small. lia. }
  rewrite E. apply firstn_all2. lia.
Qed.
End Uniform.

(** ** The driver without its bus *)
Section Methods.
Context {FO : FloatOps} (p : profile) {ER EW : Type}.
Notation drv B := (driver (FO := FO) (B := B) (ER := ER) (EW := EW)).
Notation err := (error ER EW).
Notation op := (op (FO := FO)).

(** The same driver on another bus. *)
Definition onto {B1 B2} (d : drv B1) (w : world B2 ER EW) : drv B2 :=
  {| d_bus := w; d_address := d_address d; d_calibration := d_calibration d;
     d_pixel_buffer := d_pixel_buffer d; d_resolution_correction := d_resolution_correction d;
     d_ambient := d_ambient d; d_emissivity := d_emissivity d;
     d_access_pattern := d_access_pattern d; d_reflected := d_reflected d;
     d_height := d_height d |}.
Definition core {B} (d : drv B) : drv unit := onto d (Build_world tt []).

Lemma onto_self {B} (d : drv B) : onto d (d_bus d) = d.
Proof. destruct d. reflexivity. Qed.
Lemma onto_core {B1 B2} (d : drv B1) (w : world B2 ER EW) : onto (core d) w = onto d w.
Proof. reflexivity. Qed.

Definition method (X : Type) : Type := forall B, bus B ER EW -> drv B -> X * drv B.
Definition bytes_only {B} (d : drv B) : Prop := Forall byte (d_pixel_buffer d).
Definition kept_core (c : drv unit) {X} (x : X * drv unit) : Prop :=
  d_address (snd x) = d_address c /\ bytes_only (snd x).
Definition lifted {X} (M : method X) (c : drv unit) : comp (X * drv unit) :=
  fun B bs w => let '(x, d) := M B bs (onto c w) in ((x, core d), d_bus d).
Definition umethod {X} (M : method X) : Prop :=
  forall c, bytes_only c -> uniform (d_address c) (kept_core c) (lifted M c).

Lemma um_ext {X} (M M' : method X) : (forall B bs d, M B bs d = M' B bs d) -> umethod M -> umethod M'.
Proof.
  intros E H c Hc. eapply u_ext; [|exact (H c Hc)]. intros B bs w. unfold lifted. rewrite E. reflexivity.
Qed.

Lemma um_seq {X Y} (M : method X) (K : X -> method Y) :
  umethod M -> (forall x, umethod (K x)) ->
  umethod (fun B bs d => let '(x, d1) := M B bs d in K x B bs d1).
Proof.
  intros HM HK c Hc.
  eapply u_ext; [|eapply (uniform_bind _ _ _ (kept_core c) (kept_core c) (lifted M c)
    (fun x => lifted (K (fst x)) (snd x)) (HM c Hc))].
  - intros B bs w. unfold lifted. destruct (M B bs (onto c w)) as [x d1] eqn:E. cbn [fst snd].
    rewrite onto_core, onto_self. reflexivity.
  - intros [x c1] [Ha Hb]. cbn [fst snd] in *. specialize (HK x c1 Hb). rewrite Ha in HK.
    eapply uniform_weaken; [|exact HK]. intros [y c2] [Ha2 Hb2]. split; [exact (eq_trans Ha2 Ha)|exact Hb2].
Qed.

(** What follows may look at the driver (not at the bus). *)
Lemma um_core {X} (G : drv unit -> method X) :
  (forall c, umethod (G c)) -> umethod (fun B bs d => G (core d) B bs d).
Proof. intros H c Hc. eapply u_ext; [|exact (H (core c) c Hc)]. intros B bs w. reflexivity. Qed.

Lemma um_ret {X} (x : X) : umethod (fun B bs d => (x, d)).
Proof. intros c Hc. apply (u_ret _ _ (x, core c)). split; [reflexivity|exact Hc]. Qed.

(** Assignments to the driver's fields. *)
Lemma um_set {X} (x : X) (g : forall B, drv B -> drv B) :
  (forall B1 B2 (d : drv B1) (w : world B2 ER EW), g B2 (onto d w) = onto (g B1 d) w) ->
  (forall B (d : drv B), d_address (g B d) = d_address d) ->
  (forall B (d : drv B), bytes_only d -> bytes_only (g B d)) ->
  umethod (fun B bs d => (x, g B d)).
Proof.
  intros Hg Ha Hb c Hc. eapply u_ext; [|apply (u_ret _ _ (x, core (g _ c)))].
  - intros B bs w. unfold lifted. rewrite Hg. reflexivity.
  - split; [exact (Ha _ c)|exact (Hb _ c Hc)].
Qed.

(** *** Methods with an error result *)
Lemma um_bind {A A'} (M : method (res err A)) (K : A -> method (res err A')) :
  umethod M -> (forall v, umethod (K v)) ->
  umethod (fun B bs d => bindS (M B bs d) (fun v d1 => K v B bs d1)).
Proof.
  intros HM HK.
  eapply um_ext; [|apply (um_seq M (fun r => match r with
      | Ok v => K v | Err e => fun B bs d => (Err e, d) | Panic => fun B bs d => (Panic, d)
      | Diverge => fun B bs d => (Diverge, d) end) HM)].
  - intros B bs d. cbv beta. unfold bindS. destruct (M B bs d) as [[v|e| |] d1]; reflexivity.
  - intros [v|e| |]; [apply HK|apply um_ret|apply um_ret|apply um_ret].
Qed.

Lemma um_status : umethod (fun B bs => status_register_ bs).
Proof.
  intros c Hc. eapply u_ext; [|apply (u_read _ (kept_core c) (to_be_bytes STATUS_ADDRESS) [0; 0]
    (fun data e B bs w => ((match e with Some e => Err (I2cWriteReadError e) | None => register_from_slice data end, core c), w)))].
  - intros B bs w. unfold lifted, status_register_, read_register. cbn [onto d_address d_bus].
    destruct (write_read bs (d_address c) (to_be_bytes STATUS_ADDRESS) [0; 0] w) as [[data e] w'].
    destruct e; reflexivity.
  - repeat constructor; unfold byte; lia.
  - intros data e _ _. apply u_ret. split; [reflexivity|exact Hc].
Qed.

Lemma um_write_status v : umethod (fun B bs => set_status_register bs v).
Proof.
  intros c Hc. eapply u_ext; [|apply (u_write _ (kept_core c) (to_be_bytes STATUS_ADDRESS ++ to_be_bytes v)
    (fun e B bs w => ((match e with Some e => Err (I2cWriteError e) | None => Ok tt end, core c), w)))].
  - intros B bs w. unfold lifted, set_status_register, write_register. cbn [onto d_address d_bus].
    destruct (bus_write bs (d_address c) (to_be_bytes STATUS_ADDRESS ++ to_be_bytes v) w) as [e w'].
    destruct e; reflexivity.
  - intros e. apply u_ret. split; [reflexivity|exact Hc].
Qed.

Lemma um_update v : umethod (fun B bs => update_control_register (B := B) (ER := ER) (EW := EW) (FO := FO) v).
Proof.
  intros c Hc.
  eapply u_ext; [|apply (u_ret _ (kept_core c) (let '(x, d) := update_control_register v c in (x, core d)))].
  - intros B bs w. unfold lifted, update_control_register.
    destruct (ctl_resolution v) as [r|e| |]; [|reflexivity..].
    destruct (ctl_access_pattern v) as [ap|e| |]; reflexivity.
  - unfold update_control_register.
    destruct (ctl_resolution v) as [r|e| |]; [destruct (ctl_access_pattern v) as [ap|e| |]|..];
      (split; [reflexivity|exact Hc]).
Qed.

Lemma um_control : umethod (fun B bs => control_register_ bs).
Proof.
  eapply um_ext; [|apply (um_bind (fun B bs d =>
      let '(r, w') := read_register bs (d_address d) CONTROL_ADDRESS (d_bus d) in (r, with_bus d w'))
    (fun register B bs d => bindS (update_control_register register d) (fun _ d => (Ok register, d))))].
  - intros B bs d. unfold control_register_. destruct (read_register bs (d_address d) CONTROL_ADDRESS (d_bus d)). reflexivity.
  - intros c Hc. eapply u_ext; [|apply (u_read _ (kept_core c) (to_be_bytes CONTROL_ADDRESS) [0; 0]
      (fun data e B bs w => ((match e with Some e => Err (I2cWriteReadError e) | None => register_from_slice data end, core c), w)))].
    + intros B bs w. unfold lifted, read_register. cbn [onto d_address d_bus].
      destruct (write_read bs (d_address c) (to_be_bytes CONTROL_ADDRESS) [0; 0] w) as [[data e] w'].
      destruct e; reflexivity.
    + repeat constructor; unfold byte; lia.
    + intros data e _ _. apply u_ret. split; [reflexivity|exact Hc].
  - intros v. apply (um_bind _ (fun _ B bs d => (Ok v, d))); [apply um_update|intros _; apply um_ret].
Qed.

Lemma um_write_control v : umethod (fun B bs => set_control_register bs v).
Proof.
  apply (um_bind (fun B bs => update_control_register v) (fun _ B bs d =>
    let '(r, w') := write_register bs (d_address d) CONTROL_ADDRESS v (d_bus d) in (r, with_bus d w'))); [apply um_update|].
  intros _ c Hc. eapply u_ext; [|apply (u_write _ (kept_core c) (to_be_bytes CONTROL_ADDRESS ++ to_be_bytes v)
    (fun e B bs w => ((match e with Some e => Err (I2cWriteError e) | None => Ok tt end, core c), w)))].
  - intros B bs w. unfold lifted, write_register. cbn [onto d_address d_bus].
    destruct (bus_write bs (d_address c) (to_be_bytes CONTROL_ADDRESS ++ to_be_bytes v) w) as [e w'].
    destruct e; reflexivity.
  - intros e. apply u_ret. split; [reflexivity|exact Hc].
Qed.

Lemma um_set_status_field {V} getter setter eqb (v : V) :
  umethod (fun B bs => set_status_field bs getter setter eqb v).
Proof.
  apply (um_bind (fun B bs => status_register_ bs) (fun current B bs d =>
    bindS (getter current, d) (fun old d =>
      if negb (eqb old v) then set_status_register bs (setter current v) d else (Ok tt, d)))); [apply um_status|].
  intros w. apply (um_bind (fun B bs d => (getter w, d)) (fun old B bs d =>
    if negb (eqb old v) then set_status_register bs (setter w v) d else (Ok tt, d))); [apply um_ret|].
  intros old. destruct (negb (eqb old v)); [apply um_write_status|apply um_ret].
Qed.
Lemma um_set_control_field {V} getter setter eqb (v : V) :
  umethod (fun B bs => set_control_field bs getter setter eqb v).
Proof.
  apply (um_bind (fun B bs => control_register_ bs) (fun current B bs d =>
    bindS (getter current, d) (fun old d =>
      if negb (eqb old v) then set_control_register bs (setter current v) d else (Ok tt, d)))); [apply um_control|].
  intros w. apply (um_bind (fun B bs d => (getter w, d)) (fun old B bs d =>
    if negb (eqb old v) then set_control_register bs (setter w v) d else (Ok tt, d))); [apply um_ret|].
  intros old. destruct (negb (eqb old v)); [apply um_write_control|apply um_ret].
Qed.

Lemma um_poll fuel : forall status, umethod (fun B bs => poll bs fuel status).
Proof.
  induction fuel as [|fuel IH]; intros status; cbn [poll]; destruct (new_data status); try apply um_ret.
  apply (um_bind (fun B bs => status_register_ bs) (fun s B bs => poll bs fuel s)); [apply um_status|exact IH].
Qed.
Lemma um_synchronize fuel : umethod (fun B bs => synchronize bs fuel).
Proof.
  apply (um_bind (fun B bs => status_register_ bs) (fun status B bs d =>
    bindS (set_status_register bs (set_start_measurement (set_overwrite_enabled (reset_new_data status) true)) d)
      (fun _ d => poll bs fuel (set_start_measurement (set_overwrite_enabled (reset_new_data status) true)) d))); [apply um_status|].
  intros s. eapply (um_bind (fun B bs => set_status_register bs _) (fun _ B bs => poll bs fuel _)); [apply um_write_status|].
  intros _. apply um_poll.
Qed.

(** *** Reading a frame *)
Definition anything {X} (x : X) : Prop := True.

Lemma u_ram_value a addr : uniform (ER := ER) (EW := EW) a anything (fun B bs w => read_ram_value bs a addr w).
Proof.
  eapply u_ext; [|apply (u_read a anything (to_be_bytes addr) [0; 0] (fun data e B bs w =>
    (match e with Some e => Err e | None => match data with [hi; lo] => Ok (i16_of_u16 (be16 hi lo)) | _ => Panic end end, w)))].
  - intros B bs w. unfold read_ram_value.
    destruct (write_read bs a (to_be_bytes addr) [0; 0] w) as [[data e] w']. destruct e; reflexivity.
  - repeat constructor; unfold byte; lia.
  - intros data e _ _. apply u_ret. exact I.
Qed.

Lemma u_bindS {E A A'} a (f : comp (res E A)) (k : A -> comp (ER := ER) (EW := EW) (res E A')) :
  uniform a anything f -> (forall v, uniform a anything (k v)) ->
  uniform a anything (fun B bs w => bindS (f B bs w) (fun v w1 => k v B bs w1)).
Proof.
  intros Hf Hk. eapply u_ext; [|apply (uniform_bind a _ _ anything anything f (fun r => match r with
    | Ok v => k v | Err e => fun B bs w => (Err e, w) | Panic => fun B bs w => (Panic, w)
    | Diverge => fun B bs w => (Diverge, w) end) Hf)].
  - intros B bs w. cbv beta. unfold bindS. destruct (f B bs w) as [[v|e| |] w1]; reflexivity.
  - intros [v|e| |] _; [apply Hk|..]; apply u_ret; exact I.
Qed.

Lemma u_ram_data (c : camera FO) a sp :
  uniform (ER := ER) (EW := EW) a anything (fun B bs w => ram_data_from_i2c bs c a sp w).
Proof.
  unfold ram_data_from_i2c.
  apply (u_bindS a (fun B bs w => read_ram_value bs a (T_A_V_BE _ c) w) (fun vbe B bs w => _)); [apply u_ram_value|intros vbe].
  apply (u_bindS a (fun B bs w => read_ram_value bs a (T_A_PTAT _ c) w) (fun vbe B bs w => _)); [apply u_ram_value|intros ptat].
  apply (u_bindS a (fun B bs w => read_ram_value bs a (V_DD_PIXEL _ c) w) (fun vbe B bs w => _)); [apply u_ram_value|intros vdd].
  apply (u_bindS a (fun B bs w => read_ram_value bs a (GAIN _ c) w) (fun vbe B bs w => _)); [apply u_ram_value|intros g].
  apply (u_bindS a (fun B bs w => read_ram_value bs a (compensation_pixel_addr _ c sp) w) (fun vbe B bs w => _)); [apply u_ram_value|intros cp].
  apply u_ret. exact I.
Qed.

Lemma splice_bytes buf off new : Forall byte buf -> Forall byte new -> Forall byte (splice buf off new).
Proof.
  intros Hb Hn. unfold splice. rewrite !Forall_app. split; [|split; [exact Hn|]].
  - rewrite <- (firstn_skipn off buf) in Hb. apply Forall_app in Hb. apply Hb.
  - rewrite <- (firstn_skipn (off + length new) buf) in Hb. apply Forall_app in Hb. apply Hb.
Qed.

Definition good_buffer {A} (x : A * list Z) : Prop := Forall byte (snd x).
Lemma u_ranges a rs : forall buf, Forall byte buf ->
  uniform (ER := ER) (EW := EW) a good_buffer (fun B bs w => read_ranges bs a rs buf w).
Proof.
  induction rs as [|r rs IH]; intros buf Hb; cbn [read_ranges].
  - apply (u_ret a good_buffer (Ok tt, buf)). exact Hb.
  - destruct (Nat.ltb (length buf) (buffer_offset r + range_length r)); [apply (u_ret a good_buffer (Panic, buf)); exact Hb|].
    apply (u_read a good_buffer (to_be_bytes (start_address r)) (firstn (range_length r) (skipn (buffer_offset r) buf))
      (fun data e B bs w => match e with
         | Some e => (Err e, splice buf (buffer_offset r) data, w)
         | None => read_ranges bs a rs (splice buf (buffer_offset r) data) w end)).
    + rewrite <- (firstn_skipn (buffer_offset r) buf) in Hb. apply Forall_app in Hb. destruct Hb as [_ Hb].
      rewrite <- (firstn_skipn (range_length r) (skipn (buffer_offset r) buf)) in Hb. apply Forall_app in Hb. apply Hb.
    + intros data [e|] Hd _.
      * apply (u_ret a good_buffer (Err e, splice buf (buffer_offset r) data)). apply splice_bytes; assumption.
      * apply IH. apply splice_bytes; assumption.
Qed.

Lemma u_read_ram (c : camera FO) height a ap sp buf : Forall byte buf ->
  uniform (ER := ER) (EW := EW) a good_buffer (fun B bs w => read_ram bs c height a ap sp buf w).
Proof.
  intros Hb. unfold read_ram. destruct (Nat.ltb height (length (pixel_ranges _ c sp ap))).
  { apply (u_ret a good_buffer (Panic, buf)). exact Hb. }
  eapply u_ext; [|eapply (uniform_bind a _ _ good_buffer good_buffer
    (fun B bs w => read_ranges bs a (pixel_ranges _ c sp ap) buf w)
    (fun x => match fst x with
       | Ok _ => fun B bs w => let '(r2, w'') := ram_data_from_i2c bs c a sp w in ((map_err I2cWriteReadError r2, snd x), w'')
       | Err e => fun B bs w => ((Err (I2cWriteReadError e), snd x), w)
       | Panic => fun B bs w => ((Panic, snd x), w)
       | Diverge => fun B bs w => ((Diverge, snd x), w) end) (u_ranges a _ buf Hb))].
  - intros B bs w. cbv beta. destruct (read_ranges bs a (pixel_ranges _ c sp ap) buf w) as [[[v|e| |] buf'] w']; reflexivity.
  - intros [r buf'] Hx. cbn [fst snd]. destruct r as [v|e| |]; try (apply u_ret; exact Hx).
    apply (uniform_bind a _ _ anything good_buffer (fun B bs w => ram_data_from_i2c bs c a sp w)
      (fun r2 B bs w => ((map_err I2cWriteReadError r2, buf'), w))); [apply u_ram_data|].
    intros r2 _. apply u_ret. exact Hx.
Qed.

Lemma um_read_ram sp : umethod (fun B bs => drv_read_ram bs sp).
Proof.
  intros c Hc. eapply u_ext; [|eapply (uniform_bind _ _ _ good_buffer (kept_core c)
    (fun B bs w => read_ram bs (cam _ (d_calibration c)) (d_height c) (d_address c) (d_access_pattern c) sp (d_pixel_buffer c) w)
    (fun x B bs w => ((fst x, core (with_buffer c (snd x))), w)) (u_read_ram _ _ _ _ _ _ Hc))].
  - intros B bs w. unfold lifted, drv_read_ram. cbn [onto d_address d_bus d_calibration d_height d_access_pattern d_pixel_buffer].
    destruct (read_ram bs (cam _ (d_calibration c)) (d_height c) (d_address c) (d_access_pattern c) sp (d_pixel_buffer c) w) as [[r buf] w'].
    reflexivity.
  - intros [r buf] Hx. apply u_ret. split; [reflexivity|exact Hx].
Qed.

(** *** Image methods, seen as methods with the destination in the result *)
Notation F := (F FO).
Definition seen {A B} (x : mi (FO := FO) (B := B) (ER := ER) (EW := EW) A) : (res err A * list F) * drv B :=
  let '(r, d, dest) := x in ((r, dest), d).

Lemma um_store {A} (calc : drv unit -> res err (F * list F)) dest (k : list F -> method (res err A * list F)) :
  (forall dest', umethod (k dest')) ->
  umethod (fun B bs d => match calc (core d) with
    | Ok (t_a, dest') => k dest' B bs (with_ambient d (Some t_a))
    | Err e => ((Err e, dest), d) | Panic => ((Panic, dest), d) | Diverge => ((Diverge, dest), d) end).
Proof.
  intros Hk. apply (um_core (fun c B bs d => match calc c with
    | Ok (t_a, dest') => k dest' B bs (with_ambient d (Some t_a))
    | Err e => ((Err e, dest), d) | Panic => ((Panic, dest), d) | Diverge => ((Diverge, dest), d) end)).
  intros c. destruct (calc c) as [[t_a dest']|e| |]; try apply um_ret.
  apply (um_ext (fun B bs d => let '(_, d1) := (tt, with_ambient d (Some t_a)) in k dest' B bs d1)); [reflexivity|].
  apply (um_seq (fun B bs d => (tt, with_ambient d (Some t_a))) (fun _ => k dest')); [|intros _; apply Hk].
  apply (um_set tt (fun B d => with_ambient d (Some t_a))); intros; try reflexivity. exact H.
Qed.

Lemma um_raw_subpage sp dest : umethod (fun B bs d => seen (generate_raw_image_subpage_to p bs sp dest d)).
Proof.
  eapply um_ext; [|apply (um_seq (fun B bs => drv_read_ram bs sp) (fun r => match r with
    | Ok ram => fun B bs d => match calc_ir p (core d) ram sp dest with
         | Ok (t_a, dest') => ((Ok tt, dest'), with_ambient d (Some t_a))
         | Err e => ((Err e, dest), d) | Panic => ((Panic, dest), d) | Diverge => ((Diverge, dest), d) end
    | Err e => fun B bs d => ((Err e, dest), d)
    | Panic => fun B bs d => ((Panic, dest), d)
    | Diverge => fun B bs d => ((Diverge, dest), d) end) (um_read_ram sp))].
  - intros B bs d. cbv beta. unfold generate_raw_image_subpage_to.
    destruct (drv_read_ram bs sp d) as [[ram|e| |] d1]; [|reflexivity..]. unfold store_image.
    change (calc_ir p (core d1) ram sp dest) with (calc_ir p d1 ram sp dest).
    destruct (calc_ir p d1 ram sp dest) as [[t_a dest']|e| |]; reflexivity.
  - intros [ram|e| |]; try apply um_ret.
    apply (um_store (fun c => calc_ir p c ram sp dest) dest (fun dest' B bs d => ((Ok tt, dest'), d))).
    intros dest'. apply um_ret.
Qed.

Lemma um_subpage sp dest : umethod (fun B bs d => seen (generate_image_subpage_to p bs sp dest d)).
Proof.
  eapply um_ext; [|apply (um_seq (fun B bs => drv_read_ram bs sp) (fun r => match r with
    | Ok ram => fun B bs d => match calc_temperatures p (core d) ram sp dest with
         | Ok (t_a, dest') => ((Ok tt, dest'), with_ambient d (Some t_a))
         | Err e => ((Err e, dest), d) | Panic => ((Panic, dest), d) | Diverge => ((Diverge, dest), d) end
    | Err e => fun B bs d => ((Err e, dest), d)
    | Panic => fun B bs d => ((Panic, dest), d)
    | Diverge => fun B bs d => ((Diverge, dest), d) end) (um_read_ram sp))].
  - intros B bs d. cbv beta. unfold generate_image_subpage_to.
    destruct (drv_read_ram bs sp d) as [[ram|e| |] d1]; [|reflexivity..]. unfold store_image.
    change (calc_temperatures p (core d1) ram sp dest) with (calc_temperatures p d1 ram sp dest).
    destruct (calc_temperatures p d1 ram sp dest) as [[t_a dest']|e| |]; reflexivity.
  - intros [ram|e| |]; try apply um_ret.
    apply (um_store (fun c => calc_temperatures p c ram sp dest) dest (fun dest' B bs d => ((Ok tt, dest'), d))).
    intros dest'. apply um_ret.
Qed.

Lemma um_last_subpage : umethod (fun B bs => last_measured_subpage bs).
Proof.
  apply (um_bind (fun B bs => status_register_ bs) (fun r B bs d => pure (last_updated_subpage r) d)); [apply um_status|].
  intros v. apply um_ret.
Qed.

Lemma um_image_to dest : umethod (fun B bs d => seen (generate_image_to p bs dest d)).
Proof.
  eapply um_ext; [|apply (um_seq (fun B bs => last_measured_subpage bs) (fun r => match r with
    | Ok sp => fun B bs d => seen (generate_image_subpage_to p bs sp dest d)
    | Err e => fun B bs d => ((Err e, dest), d)
    | Panic => fun B bs d => ((Panic, dest), d)
    | Diverge => fun B bs d => ((Diverge, dest), d) end) um_last_subpage)].
  - intros B bs d. cbv beta. unfold generate_image_to.
    destruct (last_measured_subpage bs d) as [[ram|e| |] d1]; reflexivity.
  - intros [sp|e| |]; [apply um_subpage|apply um_ret..].
Qed.

Lemma um_if_ready dest : umethod (fun B bs d => seen (generate_image_if_ready p bs dest d)).
Proof.
  eapply um_ext; [|apply (um_seq (fun B bs => status_register_ bs) (fun r => match r with
    | Ok status => if new_data status then
        match last_updated_subpage (E := err) status with
        | Ok sp => fun B bs d =>
            let '(r2, d) := drv_read_ram bs sp d in
            match r2 with
            | Ok ram => match calc_temperatures p (core d) ram sp dest with
                | Ok (t_a, dest') =>
                    let '(r3, d2) := set_status_register bs (reset_new_data status) (with_ambient d (Some t_a)) in
                    ((do _ <- r3; Ok true, dest'), d2)
                | Err e => ((Err e, dest), d) | Panic => ((Panic, dest), d) | Diverge => ((Diverge, dest), d) end
            | Err e => ((Err e, dest), d)
            | Panic => ((Panic, dest), d)
            | Diverge => ((Diverge, dest), d) end
        | Err e => fun B bs d => ((Err e, dest), d)
        | Panic => fun B bs d => ((Panic, dest), d)
        | Diverge => fun B bs d => ((Diverge, dest), d) end
      else fun B bs d => ((Ok false, dest), d)
    | Err e => fun B bs d => ((Err e, dest), d)
    | Panic => fun B bs d => ((Panic, dest), d)
    | Diverge => fun B bs d => ((Diverge, dest), d) end) um_status)].
  - intros B bs d. cbv beta. unfold generate_image_if_ready.
    destruct (status_register_ bs d) as [[status|e| |] d1]; [|reflexivity..].
    destruct (new_data status); [|reflexivity].
    destruct (last_updated_subpage (E := err) status) as [sp|e| |]; [|reflexivity..].
    destruct (drv_read_ram bs sp d1) as [[ram|e| |] d2]; [|reflexivity..]. unfold store_image.
    change (calc_temperatures p (core d2) ram sp dest) with (calc_temperatures p d2 ram sp dest).
    destruct (calc_temperatures p d2 ram sp dest) as [[t_a dest']|e| |]; [|reflexivity..].
    destruct (set_status_register bs (reset_new_data status) (with_ambient d2 (Some t_a))) as [r3 d3]. reflexivity.
  - intros [status|e| |]; [|apply um_ret..].
    destruct (new_data status); [|apply um_ret].
    destruct (last_updated_subpage (E := err) status) as [sp|e| |]; [|apply um_ret..].
    eapply um_ext; [|apply (um_seq (fun B bs => drv_read_ram bs sp) (fun r2 => match r2 with
      | Ok ram => fun B bs d => match calc_temperatures p (core d) ram sp dest with
          | Ok (t_a, dest') => (fun dest' B bs d =>
              let '(r3, d2) := set_status_register bs (reset_new_data status) d in
              ((do _ <- r3; Ok true, dest'), d2)) dest' B bs (with_ambient d (Some t_a))
          | Err e => ((Err e, dest), d) | Panic => ((Panic, dest), d) | Diverge => ((Diverge, dest), d) end
      | Err e => fun B bs d => ((Err e, dest), d)
      | Panic => fun B bs d => ((Panic, dest), d)
      | Diverge => fun B bs d => ((Diverge, dest), d) end) (um_read_ram sp))].
    + intros B bs d. cbv beta. destruct (drv_read_ram bs sp d) as [[ram|e| |] d2]; reflexivity.
    + intros [ram|e| |]; try apply um_ret.
      apply (um_store (fun c => calc_temperatures p c ram sp dest) dest (fun dest' B bs d =>
        let '(r3, d2) := set_status_register bs (reset_new_data status) d in ((do _ <- r3; Ok true, dest'), d2))).
      intros dest'. apply (um_seq (fun B bs => set_status_register bs (reset_new_data status))
        (fun r3 B bs d => ((do _ <- r3; Ok true, dest'), d))); [apply um_write_status|].
      intros r3. apply um_ret.
Qed.

(** *** Every call *)
Lemma um_lift {A} (f : A -> out) (M : method (res err A)) :
  umethod M -> umethod (fun B bs d => seen (lift f (M B bs d))).
Proof.
  intros H. eapply um_ext; [|apply (um_seq M (fun r B bs d => ((do a <- r; Ok (f a), []), d)) H); intros r; apply um_ret].
  intros B bs d. cbv beta. destruct (M B bs d) as [r d1]. reflexivity.
Qed.
Lemma um_lifti {A} (f : A -> out) (M : forall B, bus B ER EW -> drv B -> mi (FO := FO) (B := B) (ER := ER) (EW := EW) A) :
  umethod (fun B bs d => seen (M B bs d)) -> umethod (fun B bs d => seen (lifti f (M B bs d))).
Proof.
  intros H. eapply um_ext; [|apply (um_seq _ (fun x B bs d => ((do a <- fst x; Ok (f a), snd x), d)) H); intros x; apply um_ret].
  intros B bs d. cbv beta. destruct (M B bs d) as [[r d1] dest]. reflexivity.
Qed.

Lemma um_step (o : op) : umethod (fun B bs d => seen (step p bs d o)).
Proof.
  assert (Get : forall A (f : A -> out) (g : Z -> res err A),
    umethod (fun B bs d => seen (lift f (bindS (control_register_ bs d) (fun r d => (g r, d)))))).
  { intros A f g. apply (um_lift f (fun B bs d => bindS (control_register_ bs d) (fun r d => (g r, d)))).
    apply (um_bind (fun B bs => control_register_ bs) (fun r B bs d => (g r, d))); [apply um_control|intros v; apply um_ret]. }
  destruct o; cbn [step].
  - apply um_lift, um_last_subpage.
  - apply (um_lift OutOptSubpage (fun B bs => data_available bs)).
    apply (um_bind (fun B bs => status_register_ bs) (fun r B bs d =>
      if new_data r then pure (do s <- last_updated_subpage r; Ok (Some s)) d else (Ok None, d))); [apply um_status|].
    intros v. destruct (new_data v); apply um_ret.
  - apply (um_lift U (fun B bs => reset_data_available bs)).
    apply (um_bind (fun B bs => status_register_ bs) (fun r B bs d => set_status_register bs (reset_new_data r) d)); [apply um_status|].
    intros v. apply um_write_status.
  - apply (um_lift OutBool (fun B bs => drv_overwrite_enabled bs)).
    apply (um_bind (fun B bs => status_register_ bs) (fun r B bs d => (Ok (overwrite_enabled r), d))); [apply um_status|].
    intros w. apply um_ret.
  - apply (um_lift U (fun B bs => drv_set_overwrite_enabled bs v)), um_set_status_field.
  - apply Get.
  - apply (um_lift U (fun B bs => drv_set_use_subpages bs v)), um_set_control_field.
  - apply Get.
  - apply (um_lift U (fun B bs => drv_set_data_hold bs v)), um_set_control_field.
  - apply Get.
  - apply (um_lift U (fun B bs => drv_set_subpage_repeat bs v)), um_set_control_field.
  - apply Get.
  - apply (um_lift U (fun B bs => drv_set_subpage bs v)), um_set_control_field.
  - apply Get.
  - apply (um_lift U (fun B bs => drv_set_frame_rate bs v)), um_set_control_field.
  - apply Get.
  - apply (um_lift U (fun B bs => drv_set_resolution bs v)), um_set_control_field.
  - apply Get.
  - apply (um_lift U (fun B bs => drv_set_access_pattern bs v)), um_set_control_field.
  - apply (um_core (fun c B bs d => ((Ok (OutFloat (effective_emissivity c)), []), d))). intros c. apply um_ret.
  - apply (um_set (Ok OutUnit, []) (fun B d => override_emissivity v d)); intros; try reflexivity. exact H.
  - apply (um_set (Ok OutUnit, []) (fun B d => use_default_emissivity d)); intros; try reflexivity. exact H.
  - apply (um_core (fun c B bs d => ((Ok (OutOptFloat (reflected_temperature c)), []), d))). intros c. apply um_ret.
  - apply (um_set (Ok OutUnit, []) (fun B d => set_reflected_temperature v d)); intros; try reflexivity. exact H.
  - apply (um_core (fun c B bs d => ((Ok (OutOptFloat (drv_ambient_temperature c)), []), d))). intros c. apply um_ret.
  - apply (um_core (fun c B bs d => ((Ok (OutNat (drv_height c)), []), d))). intros c. apply um_ret.
  - apply (um_core (fun c B bs d => ((Ok (OutNat (drv_width c)), []), d))). intros c. apply um_ret.
  - apply (um_lifti U (fun B bs => generate_raw_image_subpage_to p bs sp dest)), um_raw_subpage.
  - apply (um_lifti U (fun B bs => generate_image_subpage_to p bs sp dest)), um_subpage.
  - apply (um_lifti U (fun B bs => generate_image_to p bs dest)), um_image_to.
  - apply (um_lifti OutBool (fun B bs => generate_image_if_ready p bs dest)), um_if_ready.
  - apply (um_lift U (fun B bs => synchronize bs fuel)), um_synchronize.
Qed.
End Methods.
