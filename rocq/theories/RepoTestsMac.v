(** RepoTestsMac.v -- the unit tests of dot15d4/src/csma/mod.rs (570-1089), replayed on the model. Like RepoTests.v these
    are tests of the model, not proofs of properties. The environment of the tests is a state machine that follows
    - TestRadio (phy/radio/mod.rs:111-324): its answers, and the list of asserted radio events;
    - TestDriver (phy/driver.rs:73-132): three one-place channels;
    - Delay (sync/tests.rs:10-21): every delay is ten yields;
    - the second future of the test's select, polled after the device in every poll (pollster polls again because
      TestRadio::receive and yield_now wake at once); StdDelay, the 5 s timeout of a failing test, is left out.
    A test passes if the device, run in this environment, reaches the end of the test's future and no assertion fails. The
    environment leaves the device no choice except the random numbers, which Delay ignores (0 here). *)
From Verif Require Import Base Sync FrameControl Addressing Frames Repr PhyConfig Time Csma CsmaTasks CsmaWorld.
From Verif Require Import Async AsyncProofs.
Open Scope N_scope.

(** phy/radio/mod.rs:112-120 *)
Inductive radio_event := EPrepareReceive | EReceive | EPrepareTransmit | ECancel | ETransmit | EDisable | EEnable.
Definition ev_eqb (a b : radio_event) : bool :=
  match a, b with
  | EPrepareReceive, EPrepareReceive | EReceive, EReceive | EPrepareTransmit, EPrepareTransmit | ECancel, ECancel
  | ETransmit, ETransmit | EDisable, EDisable | EEnable, EEnable => true
  | _, _ => false
  end.
(** phy/radio/mod.rs:122-133, phy/driver.rs:73-118, the counters of the delays, and where the test's future is *)
Record env := mkEnv {
  last : option radio_event; assert_nxt : list radio_event;
  should_receive : option (list N); receive_buffer : bool; cca_fail : bool;
  last_transmitted : option (list N); has_requested_cca : bool;
  ch_tx : option FrameBuffer; ch_rx : option FrameBuffer; ch_err : option Error;
  sending_rx : option FrameBuffer; sending_err : option Error;   (* received(..) and error(..) called, not yet polled *)
  delay_tx : nat; delay_rx : nat; phase : nat }.
Definition env_new : env := mkEnv None [] None false false None false None None None None None 0 0 0.
Definition with_last x e := mkEnv x (assert_nxt e) (should_receive e) (receive_buffer e) (cca_fail e) (last_transmitted e) (has_requested_cca e) (ch_tx e) (ch_rx e) (ch_err e) (sending_rx e) (sending_err e) (delay_tx e) (delay_rx e) (phase e).
Definition with_assert x e := mkEnv (last e) x (should_receive e) (receive_buffer e) (cca_fail e) (last_transmitted e) (has_requested_cca e) (ch_tx e) (ch_rx e) (ch_err e) (sending_rx e) (sending_err e) (delay_tx e) (delay_rx e) (phase e).
Definition with_receive x y e := mkEnv (last e) (assert_nxt e) x y (cca_fail e) (last_transmitted e) (has_requested_cca e) (ch_tx e) (ch_rx e) (ch_err e) (sending_rx e) (sending_err e) (delay_tx e) (delay_rx e) (phase e).
Definition with_cca_fail e := mkEnv (last e) (assert_nxt e) (should_receive e) (receive_buffer e) true (last_transmitted e) (has_requested_cca e) (ch_tx e) (ch_rx e) (ch_err e) (sending_rx e) (sending_err e) (delay_tx e) (delay_rx e) (phase e).
Definition with_transmitted b c e := mkEnv (last e) (assert_nxt e) (should_receive e) (receive_buffer e) (cca_fail e) (Some b) c (ch_tx e) (ch_rx e) (ch_err e) (sending_rx e) (sending_err e) (delay_tx e) (delay_rx e) (phase e).
Definition with_tx x e := mkEnv (last e) (assert_nxt e) (should_receive e) (receive_buffer e) (cca_fail e) (last_transmitted e) (has_requested_cca e) x (ch_rx e) (ch_err e) (sending_rx e) (sending_err e) (delay_tx e) (delay_rx e) (phase e).
Definition with_rx x y e := mkEnv (last e) (assert_nxt e) (should_receive e) (receive_buffer e) (cca_fail e) (last_transmitted e) (has_requested_cca e) (ch_tx e) x (ch_err e) y (sending_err e) (delay_tx e) (delay_rx e) (phase e).
Definition with_err x y e := mkEnv (last e) (assert_nxt e) (should_receive e) (receive_buffer e) (cca_fail e) (last_transmitted e) (has_requested_cca e) (ch_tx e) (ch_rx e) x (sending_rx e) y (delay_tx e) (delay_rx e) (phase e).
Definition with_delay t n e := mkEnv (last e) (assert_nxt e) (should_receive e) (receive_buffer e) (cca_fail e) (last_transmitted e) (has_requested_cca e) (ch_tx e) (ch_rx e) (ch_err e) (sending_rx e) (sending_err e) (match t with Tx => n | Rx => delay_tx e end) (match t with Tx => delay_rx e | Rx => n end) (phase e).
Definition with_phase n e := mkEnv (last e) (assert_nxt e) (should_receive e) (receive_buffer e) (cca_fail e) (last_transmitted e) (has_requested_cca e) (ch_tx e) (ch_rx e) (ch_err e) (sending_rx e) (sending_err e) (delay_tx e) (delay_rx e) n.
Definition delay_of t e := match t with Tx => delay_tx e | Rx => delay_rx e end.

(** phy/radio/mod.rs:166-195; None: the assertion fails *)
Definition new_event (x : radio_event) (e : env) : option env :=
  if match last e with Some y => ev_eqb x y | None => false end then Some e
  else match assert_nxt e with
       | y :: r => if ev_eqb y x then Some (with_last (Some x) (with_assert r e)) else None
       | [] => Some (with_last (Some x) e)
       end.
Definition is_none {A} (o : option A) : bool := match o with None => true | Some _ => false end.
Definition list_eqb (a b : list N) : bool := bytes_eqb a b.
(** What the environment does when the device performs an operation with this result; None: this is not the result the
    environment gives, or an assertion fails. *)
Definition answer (x : event) (e : env) : option env :=
  match x with
  | Polled => None
  | Enable done => if done then new_event EEnable e else None
  | PrepareRx _ _ done => if done then option_map (with_receive (should_receive e) true) (new_event EPrepareReceive e) else None
  | Receive _ r =>
      match new_event EReceive e with
      | None => None
      | Some e =>
          if receive_buffer e then
            match should_receive e, r with
            | Some f, Some (ok, b) => if ok && list_eqb f b then Some (with_receive None false e) else None
            | None, None => Some e
            | _, _ => None
            end
          else match r with Some (ok, _) => if ok then None else Some e | None => None end
      end
  | PrepareTx _ c b done => if done then option_map (with_transmitted b (tx_cca c)) (new_event EPrepareTransmit e) else None
  | Transmit _ r =>
      match new_event ETransmit e, r with
      | Some e, Some sent => if Bool.eqb sent (negb (has_requested_cca e && cca_fail e)) then Some e else None
      | _, _ => None
      end
  | Cancel _ => new_event ECancel e
  | NextFrame r =>
      match ch_tx e, r with
      | Some f, Some g => if list_eqb (fb_buffer f) (fb_buffer g) && Bool.eqb (fb_dirty f) (fb_dirty g) then Some (with_tx None e) else None
      | None, None => Some e
      | _, _ => None
      end
  | Received f => Some (with_rx (ch_rx e) (Some f) e)
  | ReceivedDone done => if done then Some (with_rx (sending_rx e) None e) else None
  | Report x => Some (with_err (ch_err e) (Some x) e)
  | ReportDone done => if done then Some (with_err (sending_err e) None e) else None
  | Delay t _ => Some (with_delay t 10 e)
  | DelayDone t done =>
      match delay_of t e with
      | O => if done then Some e else None
      | S n => if done then None else Some (with_delay t n e)
      end
  | _ => Some e     (* mutexes, the wants-to-transmit channel and wake-ups are the model's own; random numbers are free *)
  end.

(** The test's future: one poll, which goes from [await] to [await]; [finished] is the phase after the last one. *)
Definition finished : nat := 99.
Definition body := env -> option env.
(** The environment's view of a history (without the first [Polled]): the test's future is polled before the next poll of
    the device *)
Fixpoint replay (bd : body) (h : list event) (e : env) : option env :=
  match h with
  | [] => Some e
  | Polled :: h => match bd e with Some e => replay bd h e | None => None end
  | x :: h => match answer x e with Some e => replay bd h e | None => None end
  end.
Definition test_ends (bd : body) (h : list event) (e : env) : Prop :=
  exists e1 e2, replay bd h e = Some e1 /\ bd e1 = Some e2 /\ phase e2 = finished.

(** The device of the tests (csma/mod.rs:571-581): all of them use these parameters. TestRadio::default has the address
    [0xca; 8]. *)
Definition test_setup : Setup := mkSetup default_params config_default test_device (repeat 0xca 8) Checked.
Definition test_passes (bd : body) (e : env) : Prop :=
  exists c p w h, reachable test_setup (Pend c p) w /\ w_hist w = Polled :: h /\ test_ends bd h e.

(** ** Running it *)
Inductive passes (bd : body) : future Empty_set -> world -> env -> Prop :=
| pass_end p c q w e e' : frob p = Pend c q -> bd e = Some e' -> phase e' = finished -> passes bd p w e
| pass_poll p c q w e e' : frob p = Pend c q -> bd e = Some e' -> passes bd q w e' -> passes bd p w e
| pass_tau p q w e : frob p = Tau q -> passes bd q w e -> passes bd p w e
| pass_vis p B (o : op B) k b w w' e e' :
    frob p = Vis o k -> next_state w (o b) = Some w' -> answer (o b) e = Some e' -> passes bd (k b) w' e' -> passes bd p w e.
Definition add_hist (h : list event) (w : world) : world := mkWorld (w_radio w) (w_rng w) (w_chan w) (w_held w) (h ++ w_hist w).
Lemma next_state_hist w x w' h : next_state w x = Some w' ->
  next_state (mkWorld (w_radio w) (w_rng w) (w_chan w) (w_held w) h) x = Some (mkWorld (w_radio w') (w_rng w') (w_chan w') (w_held w') h).
Proof.
  destruct w as [m r c hd hs]. destruct x; cbn [next_state w_radio w_rng w_chan w_held w_hist]; intros E;
    repeat match goal with
    | |- context [let '(_, _) := ?t in _] => destruct t as [[? ?] ?]
    | |- context [let (_, _) := ?t in _] => destruct t as [? ?]
    | H : context [match ?t with _ => _ end] |- _ => destruct t as []
    end; try discriminate E; injection E as <-; reflexivity.
Qed.
Lemma answered x e : x <> Polled -> forall bd h, replay bd (x :: h) e = match answer x e with Some e => replay bd h e | None => None end.
Proof. destruct x; intros H bd h; try reflexivity. destruct (H eq_refl). Qed.
Lemma next_not_polled w x w' : next_state w x = Some w' -> x <> Polled.
Proof. intros H ->. discriminate H. Qed.
Lemma replay_app bd a : forall e b, replay bd (a ++ b) e = match replay bd a e with Some e => replay bd b e | None => None end.
Proof.
  induction a as [|x a IH]; intros e b; [reflexivity|]. cbn [app]. destruct x; cbn [replay];
    match goal with |- match ?t with _ => _ end = _ => destruct t as [?|]; [apply IH|reflexivity] end.
Qed.
Lemma passes_reach bd p w e : passes bd p w e -> forall p0 w0 h e0,
  reach sem between p0 w0 p (mkWorld (w_radio w) (w_rng w) (w_chan w) (w_held w) (Polled :: h)) -> replay bd h e0 = Some e ->
  exists c q v h', reach (A := Empty_set) sem between p0 w0 (Pend c q) v /\ w_hist v = Polled :: h' /\ test_ends bd h' e0.
Proof.
  intros HP. induction HP as [p c q w e e' HF HB HE|p c q w e e' HF HB HP IH|p q w e HF HP IH|p B o k b w w' e e' HF HN HA HP IH];
    intros p0 w0 h e0 HR HH; rewrite <- frob_eq in HF; subst p.
  - exists c, q, (mkWorld (w_radio w) (w_rng w) (w_chan w) (w_held w) (Polled :: h)), h. split; [exact HR|]. split; [reflexivity|].
    exists e, e'. auto.
  - apply (IH p0 w0 (h ++ [Polled])%list).
    + eapply reach_step; [exact HR|]. split; reflexivity.
    + rewrite replay_app, HH. cbn [replay]. rewrite HB. reflexivity.
  - apply (IH p0 w0 h); [|exact HH]. eapply reach_step; [exact HR|]. split; reflexivity.
  - apply (IH p0 w0 (h ++ [o b])%list).
    + eapply reach_step; [exact HR|]. exists b. split; [|reflexivity]. unfold sem, happens.
      rewrite (next_state_hist _ _ _ (Polled :: h) HN). reflexivity.
    + rewrite replay_app, HH. rewrite (answered (o b) e (next_not_polled _ _ _ HN)). rewrite HA. reflexivity.
Qed.
Lemma by_running bd e : passes bd (run test_setup) start e -> test_passes bd e.
Proof. intros H. exact (passes_reach bd _ _ _ H _ _ [] e (reach_here _ _ _ _) eq_refl). Qed.

(** ** The frames of the tests *)
(** the frame of csma/mod.rs:624-645 and the other tests: built, [ack_request] set by hand, emitted at the start of a
    zeroed buffer *)
Definition test_frame (dst : Address) (pan : N) (ack_request : bool) : list N :=
  match b_finalize (b_set_src_pan_id pan (b_set_dst_pan_id pan (b_set_src_address (AExtended [1; 2; 3; 4; 9; 8; 7; 6])
          (b_set_dst_address dst (b_set_sequence_number 123 (new_data [1; 2; 3; 4])))))) with
  | Ok f =>
      let c := f_control f in
      let f := mkFrame (mkFcRepr (fr_frame_type c) (fr_security_enabled c) (fr_frame_pending c) ack_request (fr_pan_id_compression c)
                 (fr_sequence_number_suppression c) (fr_information_elements_present c) (fr_dst_addressing_mode c)
                 (fr_src_addressing_mode c) (fr_frame_version c)) (f_sequence_number f) (f_addressing f) (f_ies f) (f_payload f) in
      match (let* n := frame_buffer_len f in consume test_device n (frame_emit f) (repeat 0 128)) with Done b => b | Panic => [] end
  | Err => []
  end.
Definition unicast (pan : N) : list N := test_frame (AExtended [1; 2; 3; 4; 5; 6; 7; 8]) pan false.
Definition to_us (ack_request : bool) : list N := test_frame (AExtended (repeat 0xca 8)) 0xffff ack_request.
Definition to_all : list N := test_frame ABroadcast 0xffff true.
(** [frame.frame_control_mut().set_ack_request(true)] *)
Definition requested (b : list N) : list N := match on_control (fc_set_ack_request true) b with Done b => b | Panic => [] end.
Definition imm_ack : list N :=
  match consume test_device 3 (frame_emit (new_imm_ack 123)) (repeat 0 128) with Done b => b | Panic => [] end.
Definition garbage : list N := [42; 42; 42; 42] ++ repeat 0 124.

(** ** The tests' futures *)
Definition check (b : bool) (k : env -> option env) (e : env) : option env := if b then k e else None.
(** radio.wait_until_asserts_are_consumed().await *)
Definition consumed (n : nat) (k : env -> option env) (e : env) : option env :=
  match assert_nxt e with [] => k (with_phase n e) | _ => Some e end.
Definition append (l : list radio_event) (e : env) : env := with_assert (assert_nxt e ++ l) e.
(** inner.assert_nxt.clear() *)
Definition clear (e : env) : env := with_assert [] e.
Definition is_last (b : option (list N)) (e : env) : bool :=
  match last_transmitted e, b with Some x, Some y => list_eqb x y | None, None => true | _, _ => false end.
(** monitor.rx.receive().await is the frame *)
Definition receives (n : nat) (b : list N) (k : env -> option env) (e : env) : option env :=
  match ch_rx e with Some f => if list_eqb (fb_buffer f) b then k (with_phase n (with_rx None (sending_rx e) e)) else None | None => Some e end.
Definition done : env -> option env := fun e => Some (with_phase finished e).

(** 570-607 *)
Definition happy_path_transmit_no_ack : body := fun e =>
  match phase e with
  | O => consumed 1 done (with_phase 1 (with_tx (Some fb_default)
           (append [EPrepareReceive; EReceive; ECancel; EPrepareTransmit; ETransmit; EPrepareReceive; EReceive] e)))
  | _ => consumed 1 done e
  end.
(** 609-701 *)
Definition happy_path_transmit_with_ack : body := fun e =>
  let p2 := consumed 2 (fun e => check (is_none (ch_err e)) done e) in
  let p1 := consumed 2 (fun e => check (is_last (Some (requested (unicast 0xfff))) e) (fun e =>
              p2 (append [EPrepareReceive; EReceive] (with_receive (Some imm_ack) (receive_buffer e) e))) e) in
  match phase e with
  | O => p1 (with_phase 1 (append [EPrepareReceive; EReceive; ECancel; EPrepareTransmit; ETransmit; EPrepareReceive; EReceive]
              (clear (with_tx (Some (mkFb (unicast 0xfff) false)) e))))
  | 1%nat => p1 e
  | _ => p2 e
  end.
(** 703-771 *)
Definition is_ack (b : option (list N)) : bool :=
  match b with
  | Some b => match data_new (firstn 127 b) with
              | Done (Ok b) => match (let* fc := data_frame_control b in fc_frame_type fc) with Done FtAck => true | _ => false end
              | _ => false
              end
  | None => false
  end.
Definition receive_body (f : list N) (evs : list radio_event) (ok : env -> bool) : body := fun e =>
  let p2 := consumed 3 (fun e => check (ok e) done e) in
  let p1 := receives 2 f p2 in
  match phase e with
  | O => consumed 1 (fun e => p1 (append evs (with_receive (Some f) (receive_buffer e) e))) e
  | 1%nat => p1 e
  | _ => p2 e
  end.
Definition happy_path_receive : body := receive_body (to_us true) [EPrepareTransmit; ETransmit] (fun e => is_ack (last_transmitted e)).
(** 773-833 *)
Definition receive_no_ack : body := receive_body (to_us false) [EPrepareReceive; EReceive] (is_last None).
(** 1027-1089 *)
Definition do_not_ack_by_default_on_broadcast : body := receive_body to_all [EPrepareReceive; EReceive] (is_last None).
(** the three tests that receive assert the first events before the device runs *)
Definition expects_start : env := with_assert [EEnable; EPrepareReceive; EReceive] env_new.
(** monitor.errors.receive().await, an error for which [ok] *)
Definition fails_with (ok : Error -> bool) (e : env) : option env :=
  match ch_err e with Some x => check (ok x) done e | None => Some e end.
Fixpoint times (n : nat) (l : list radio_event) : list radio_event := match n with O => [] | S n => l ++ times n l end.
(** 951-1025 *)
Definition transmit_no_ack_received : body := fun e =>
  let p2 := fails_with (fun x => match x with AckFailed | AckRetry _ => true | _ => false end) in
  let p1 := consumed 2 p2 in
  match phase e with
  | O => p1 (with_phase 1 (append (times 3 [EPrepareReceive; EReceive; ECancel])
              (append [EPrepareReceive; EReceive; ECancel; EPrepareTransmit; ETransmit] (clear (with_tx (Some (mkFb (unicast 0xfff) false)) e)))))
  | 1%nat => p1 e
  | _ => p2 e
  end.
(** 835-949 *)
Definition wait_for_ack_but_receive_garbage_and_cca_issues : body := fun e =>
  let p3 := fails_with (fun x => match x with CcaFailed | CcaBackoff _ => true | _ => false end) in
  let p2 := consumed 3 p3 in
  let p1 := consumed 2 (fun e => check (is_last (Some (requested (unicast 0xffff))) e) (fun e =>
    p2 (append (times (N.to_nat (p_backoffs default_params) - 1)
                  [EPrepareTransmit; ETransmit; EPrepareReceive; EReceive; ECancel; EPrepareReceive; EReceive; ECancel])
        (append (times 3 [EPrepareReceive; EReceive; ECancel])
        (with_cca_fail (with_receive (Some garbage) (receive_buffer e) e))))) e) in
  match phase e with
  | O => p1 (with_phase 1 (append [EPrepareReceive; EReceive; ECancel; EPrepareTransmit; ETransmit; EPrepareReceive; EReceive]
              (clear (with_tx (Some (mkFb (unicast 0xffff) false)) e))))
  | 1%nat => p1 e
  | 2%nat => p2 e
  | _ => p3 e
  end.

Ltac ready v := lazymatch v with Some ?x => x end.
Ltac pick bd p w e o k b :=
  let s := eval vm_compute in (next_state w (o b)) in
  let w' := ready s in
  let a := eval vm_compute in (answer (o b) e) in
  let e' := ready a in
  let q := eval cbv beta in (k b) in
  refine (pass_vis bd p _ o k b w w' e e' _ _ _ _ : passes bd p w e);
  [reflexivity|vm_compute; reflexivity|vm_compute; reflexivity|change (passes bd q w' e')].
Ltac answers B e f :=
  lazymatch B with
  | unit => f tt
  | bool => first [f true | f false]
  | option bool => first [f (Some true) | f (Some false) | f (None : option bool)]
  | N => f 0%N
  | option FrameBuffer => let x := eval vm_compute in (ch_tx e) in f x
  | option (bool * list N) =>
      let x := eval vm_compute in (if receive_buffer e then match should_receive e with Some b => Some (true, b) | None => None end else Some (false, repeat 0%N 128)) in f x
  end.
(** one step of the device, answered by the environment; pure functions are computed beforehand *)
(** pure functions are computed beforehand, when their argument is known *)
Lemma prepared b x c y s :
  set_ack_request_if_possible (s_config test_setup) (s_device test_setup) b = Done (TxOk x, c) ->
  overwrite_pan_id (s_params test_setup) (s_config test_setup) (s_device test_setup) c = Done (TxOk tt, y) ->
  option_map fst x = s -> prepare_frame test_setup b = Ret (y, s).
Proof.
  intros H1 H2 <-. unfold prepare_frame. rewrite H1. cbn [lift]. rewrite bind_ret.
  destruct x as [[s n]|]; cbn [option_map fst]; rewrite bind_ret, H2; cbn [lift]; rewrite !bind_ret; reflexivity.
Qed.
Ltac prep :=
  lazymatch goal with |- passes ?bd ?p ?w ?e => let p' := eval cbv beta in p in change (passes bd p' w e) end;
  match goal with |- context [prepare_frame test_setup ?b] =>
    let r := eval vm_compute in (set_ack_request_if_possible (s_config test_setup) (s_device test_setup) b) in
    lazymatch r with Done (TxOk ?x, ?c) =>
      let r2 := eval vm_compute in (overwrite_pan_id (s_params test_setup) (s_config test_setup) (s_device test_setup) c) in
      lazymatch r2 with Done (TxOk tt, ?y) =>
        let s := eval vm_compute in (option_map fst x) in
        rewrite (prepared b x c y s ltac:(vm_compute; reflexivity) ltac:(vm_compute; reflexivity) eq_refl)
      end end end.
Lemma acknowledged a b s c y : a = true -> b = Some s -> build_ack (s_device test_setup) s c = Done y ->
  acknowledge test_setup a b c = (delay Rx 500 ;; unwrap_guard RxGuard ;; do _ <- transmit Rx (mkTx (c_channel config_default) false) y; Ret y).
Proof.
  intros -> -> H. unfold acknowledge. rewrite H.
  replace (duration_div (s_profile test_setup) (p_aifs (s_params test_setup)) 2) with (Done 500%Z) by (vm_compute; reflexivity).
  cbn [lift]. rewrite !bind_ret. reflexivity.
Qed.
Ltac ackn :=
  match goal with |- context [acknowledge test_setup ?a ?b ?c] =>
    let a' := eval vm_compute in a in lazymatch a' with true =>
    let b' := eval vm_compute in b in lazymatch b' with Some ?s =>
    let r := eval vm_compute in (build_ack (s_device test_setup) s c) in lazymatch r with Done ?y =>
    rewrite (acknowledged a b s c y ltac:(vm_compute; reflexivity) ltac:(vm_compute; reflexivity) ltac:(vm_compute; reflexivity))
    end end end end.
Ltac sim1 := try prep; try ackn;
  lazymatch goal with |- passes ?bd ?p ?w ?e =>
    let p' := eval hnf in (frob p) in
    lazymatch p' with
    | Tau ?q => refine (pass_tau bd p q w e _ _); [reflexivity|]
    | Pend ?c ?q =>
        let s := eval vm_compute in (bd e) in
        let e' := ready s in
        let f := eval vm_compute in (Nat.eqb (phase e') finished) in
        lazymatch f with
        | true => exact (pass_end bd p c q w e e' eq_refl ltac:(vm_compute; reflexivity) eq_refl)
        | false => refine (pass_poll bd p c q w e e' eq_refl _ _); [vm_compute; reflexivity|]
        end
    | @Vis _ _ ?B ?o ?k => answers B e ltac:(fun b => pick bd p w e o k b)
    | Fail => fail 100 "panic"
    end
  end.
(** ** The tests *)
Ltac simulate := apply by_running; unfold start; repeat sim1.
Example test_happy_path_transmit_no_ack : test_passes happy_path_transmit_no_ack env_new. Proof. simulate. Qed.
Example test_happy_path_transmit_with_ack : test_passes happy_path_transmit_with_ack env_new. Proof. simulate. Qed.
Example test_happy_path_receive : test_passes happy_path_receive expects_start. Proof. simulate. Qed.
Example test_receive_no_ack : test_passes receive_no_ack expects_start. Proof. simulate. Qed.
Example test_wait_for_ack_but_receive_garbage_and_cca_issues :
  test_passes wait_for_ack_but_receive_garbage_and_cca_issues env_new.
Proof. simulate. Qed.
Example test_transmit_no_ack_received : test_passes transmit_no_ack_received env_new. Proof. simulate. Qed.
Example test_do_not_ack_by_default_on_broadcast : test_passes do_not_ack_by_default_on_broadcast expects_start. Proof. simulate. Qed.
