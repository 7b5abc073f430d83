(** PropSource.v -- C80: everything handed to the radio for transmission is either what the frame taken last from the upper
    layer becomes, or the acknowledgement of the frame received last *)
From Coq Require Import Lia.
From Verif Require Import Base Spec PhyConfig Time Csma SpecCsma CsmaTasks CsmaWorld SpecTasks SourceFacts PropPrepared TaskRuns.
From Verif Require Import Async.

Lemma last_such_split f h e : last_such f h = Some e -> exists h0 h', h = h0 ++ e :: h' /\ f e = true /\ forall x, In x h' -> f x = false.
Proof.
  induction h as [|x h IH] using rev_ind; [discriminate|]. rewrite last_such_snoc. destruct (f x) eqn:E.
  - intros [= <-]. exists h, []. split; [reflexivity|]. split; [exact E|]. intros ? [].
  - intros H. destruct (IH H) as (h0 & h' & -> & HE & HN). exists h0, (h' ++ [x]). rewrite <- app_assoc. split; [reflexivity|]. split; [exact HE|].
    intros y HI. apply in_app_or in HI. destruct HI as [HI|[<-|[]]]; auto.
Qed.

(** The transmit task: the octets are what the last frame taken becomes (by C45_prepared_determined they are unique). *)
Theorem C80_frames_only : forall S p w h1 c b d h2, setup_ok S -> reachable S p w -> w_hist w = h1 ++ PrepareTx Tx c b d :: h2 ->
  exists h0 fb h' q es, h1 = h0 ++ NextFrame (Some fb) :: h' /\ (forall f, ~ In (NextFrame (Some f)) h') /\ prepared S (fb_buffer fb) b q es.
Proof.
  intros S p w h1 c b d h2 OK HR E. destruct (sends_frame S OK p w h1 c b d h2 HR E) as (fb & q & es & HL & HP).
  destruct (last_such_split _ _ _ HL) as (h0 & h' & EH & _ & HN). exists h0, fb, h', q, es. split; [exact EH|]. split; [|exact HP].
  intros f HI. specialize (HN _ HI). discriminate.
Qed.
Print Assumptions C80_frames_only.
(** The receive task: the octets are the acknowledgement of the last frame received, which is one that wants it. *)
Theorem C80_acks_only : forall S p w h1 c b d h2, setup_ok S -> reachable S p w -> w_hist w = h1 ++ PrepareTx Rx c b d :: h2 ->
  exists h0 buf h' s, h1 = h0 ++ Receive Rx (Some (true, buf)) :: h' /\ (forall r, ~ In (Receive Rx (Some r)) h') /\
    acked_with S buf s /\ b = ack_octets S s.
Proof.
  intros S p w h1 c b d h2 OK HR E. destruct (sends_ack S OK p w h1 c b d h2 HR E) as (s & (buf & HL & HA) & HB).
  destruct (last_such_split _ _ _ HL) as (h0 & h' & EH & _ & HN). exists h0, buf, h', s. split; [exact EH|]. split; [|auto].
  intros r HI. specialize (HN _ HI). discriminate.
Qed.
Print Assumptions C80_acks_only.

(** In the run of TaskRuns.v both happen. *)
Example C80_case : exists c p w, reachable S0 (Pend c p) w /\
  (exists h1 h2, w_hist w = h1 ++ PrepareTx Tx (mkTx (c_channel config_default) true) on_air true :: h2) /\
  (exists h1 h2, w_hist w = h1 ++ PrepareTx Rx (mkTx (c_channel config_default) false) ack true :: h2).
Proof.
  destruct (suspensions (upto 10)) as (c & p & w & HR & HH); [cbn; auto 12|]. exists c, p, w. split; [exact HR|]. rewrite HH. split; apply in_split; cbn; auto 200.
Qed.
