(** Proofs for C66. *)
From Coq Require Import ZArith Bool List Lia.
From Verif Require Import Base Parse Cpu Prog RalMemory RalBus RalRunner RalDebug RalThread RalLoop SpecRalLoop.
Import ListNotations.
Open Scope list_scope.
Open Scope Z_scope.

(** The request, read off the events; [None]: they are out of order. *)
Definition want1 (st : option (bool * bool)) (e : event) : option (bool * bool) :=
  (* (there is a request, a try is due at once if there is one) *)
  match st with
  | None => None
  | Some (want, due) =>
      match e with
      | ETry ok => if want then Some (negb ok, false) else None
      | ETurn => if due && want then None else Some (want, true)
      | EReset => if due && want then None else Some (false, false)
      | EAsk => if due && want then None else Some (true, false)
      | _ => if due && want then None else Some (want, false)
      end
  end.
Definition want (st : option (bool * bool)) (l : list event) := fold_left want1 l st.
Lemma want_none : forall l, want None l = None.
Proof. induction l; [reflexivity|exact IHl]. Qed.
Lemma want_app : forall st a b, want st (a ++ b) = want (want st a) b.
Proof. intros. apply fold_left_app. Qed.

Lemma want_unsettled : forall b d st, unsettled b -> want (Some (true, d)) b = Some st -> fst st = true.
Proof.
  induction b as [|e b IH]; intros d st U H.
  - injection H as <-. reflexivity.
  - inversion U as [|? ? N U']; subst. unfold want in H. cbn [fold_left] in H. fold (want (want1 (Some (true, d)) e) b) in H.
    destruct e as [| [|] | | | | | | |], d; cbn in H; try (rewrite want_none in H; discriminate H); try (eapply IH; eassumption);
      exfalso; apply N; unfold settles; auto.
Qed.
(** Nothing is due at the end of a list of turns. *)
Lemma want_kept : forall l d0, (exists w, want (Some (d0, false)) l = Some (w, false)) -> kept l.
Proof.
  intros l d0 [w H] a b c -> U. rewrite want_app in H. destruct (want (Some (d0, false)) a) as [[x y]|]; [|rewrite want_none in H; discriminate H].
  change (EAsk :: b ++ ETurn :: c) with ([EAsk] ++ b ++ ETurn :: c) in H. rewrite want_app in H.
  assert (E : want (Some (x, y)) [EAsk] = None \/ want (Some (x, y)) [EAsk] = Some (true, false)) by (cbn; destruct y, x; auto).
  destruct E as [E|E]; rewrite E in H; [rewrite want_none in H; discriminate H|].
  rewrite want_app in H. destruct (want (Some (true, false)) b) as [[x' y']|] eqn:E2; [|rewrite want_none in H; discriminate H].
  pose proof (want_unsettled _ _ _ U E2) as E3. cbn in E3. subst x'.
  destruct c as [|e c]; [destruct y'; discriminate H|].
  unfold want in H. cbn [fold_left] in H. fold (want (want1 (want1 (Some (true, y')) ETurn) e) c) in H.
  destruct y'; cbn in H; [rewrite want_none in H; discriminate H|].
  destruct e; try (rewrite want_none in H; discriminate H). eauto.
Qed.
(** A request that is there was asked for. *)
Lemma want_source : forall a d, want (Some (false, false)) a = Some (true, d) -> exists c r, a = c ++ EAsk :: r /\ unsettled r.
Proof.
  induction a as [|e a IH] using rev_ind; intros d H; [discriminate H|].
  rewrite want_app in H. destruct (want (Some (false, false)) a) as [[x y]|] eqn:E; [|discriminate H].
  assert (X : e = EAsk \/ (x = true /\ ~ settles e)).
  { destruct e as [| [|] | | | | | | |], x, y; cbn in H; try discriminate H; auto; right; split; auto; intros [N|N]; discriminate N. }
  destruct X as [->|[-> N]].
  - exists a, []. split; [reflexivity|constructor].
  - destruct (IH _ eq_refl) as (c & r & -> & U). exists c, (r ++ [e]). split; [rewrite <- app_assoc; reflexivity|]. apply Forall_app. split; [exact U|]. constructor; [exact N|constructor].
Qed.
Lemma want_asked : forall l st, want (Some (false, false)) l = Some st -> asked l.
Proof.
  intros l st H a ok b ->. rewrite want_app in H. destruct (want (Some (false, false)) a) as [[x y]|] eqn:E; [|rewrite want_none in H; discriminate H].
  destruct x; [exact (want_source _ _ E)|]. unfold want in H. cbn [fold_left] in H. fold (want (want1 (Some (false, y)) (ETry ok)) b) in H. cbn in H. rewrite want_none in H. discriminate H.
Qed.
Definition b2n (b : bool) : nat := if b then 1%nat else 0%nat.
Lemma count_cons : forall f e l, count f (e :: l) = (b2n (f e) + count f l)%nat.
Proof. intros. unfold count. cbn. destruct (f e); reflexivity. Qed.
Lemma count_app : forall f a b, count f (a ++ b) = (count f a + count f b)%nat.
Proof. intros. unfold count. rewrite filter_app. apply app_length. Qed.
Lemma want_count : forall l x d y e, want (Some (x, d)) l = Some (y, e) -> (count is_accept l + b2n y <= count is_ask l + b2n x)%nat.
Proof.
  induction l as [|ev l IH]; intros x d y e H; [injection H as <- <-; cbn; lia|].
  rewrite !count_cons. unfold want in H. cbn [fold_left] in H. fold (want (want1 (Some (x, d)) ev) l) in H.
  destruct ev as [| [|] | | | | | | |], x, d; cbn [want1 andb negb] in H; try (rewrite want_none in H; discriminate H); apply IH in H; cbn in *; lia.
Qed.

Section Loop.
Context {Q D : Type}.
Variables (FL : Flavour Q) (da : bool) (mask bits : Z) (dv : dev D).
Variable search : list Z -> Z -> nat + nat.
Variables (n hz : nat) (q0 : Q).
Notation turn := (turn FL da mask bits dv search n hz q0).
Notation thread_run := (thread_run FL da mask bits dv search n hz q0).
Lemma oseq_done : forall A B (x : outcome A) (f : A -> outcome B) r, oseq x f = Done r -> exists a, x = Done a /\ f a = Done r.
Proof. intros A B [| |a] f r H; try discriminate H. exists a. split; [reflexivity|exact H]. Qed.

Lemma pending_want : forall w req w' req' l, pending_nmi FL mask bits dv w req = Done (w', req', l) ->
  want (Some (req, true)) l = Some (req', req && negb req && true) \/ (req = false /\ req' = false /\ l = []) .
Proof.
  intros w [|] w' req' l H; unfold pending_nmi in H; [left|right; injection H as <- <- <-; auto].
  apply oseq_done in H. destruct H as ([w1 r] & _ & H). injection H as <- <- <-. destruct r; reflexivity.
Qed.
Lemma pending_head : forall w req w' req' l, pending_nmi FL mask bits dv w req = Done (w', req', l) ->
  exists d, want (Some (req, false)) (ETurn :: l) = Some (req', d) /\ d && req' = false.
Proof.
  intros w req w' req' l H. destruct (pending_want _ _ _ _ _ H) as [E|(-> & -> & ->)].
  - destruct req; cbn in E |- *; eexists; (split; [exact E|]); reflexivity.
  - exists true. split; reflexivity.
Qed.

(** The state of a thread, and what is left of its request when it has ended. *)
Lemma turn_want : forall t p t' l, turn t p = Done (t', l) ->
  exists y, want (Some (th_nmi t, false)) l = Some (y, false) /\ forall x, t' = Some x -> th_nmi x = y.
Proof.
  intros [w req dbg] p t' l H. unfold RalLoop.turn in H. cbn [th_debug th_world th_nmi] in *. destruct dbg.
  - assert (G : forall m, debug_turn FL mask bits dv search n hz q0 w req m = Done (t', l) ->
      exists y, want (Some (req, false)) l = Some (y, false) /\ forall x, t' = Some x -> th_nmi x = y).
    { clear H p. intros m H. unfold debug_turn in H. apply oseq_done in H. destruct H as ([[w1 req1] l1] & P & H).
      destruct (pending_head _ _ _ _ _ P) as (d & E & Hd). apply oseq_done in H. destruct H as (? & _ & H).
      destruct m as [[]|]; try (apply oseq_done in H; destruct H as (? & _ & H)); injection H as <- <-;
        match goal with |- context [want _ (ETurn :: l1 ++ ?r)] => change (ETurn :: l1 ++ r) with ((ETurn :: l1) ++ r) end; rewrite want_app, E; cbn; rewrite Hd;
        (eexists; split; [reflexivity|]; intros ? X; try discriminate X; injection X as <-; reflexivity). }
    destruct p as [m| |]; [exact (G _ H)| |exact (G _ H)]. injection H as <- <-. exists req. split; [reflexivity|]. intros x X. injection X as <-. reflexivity.
  - unfold run_turn in H. apply oseq_done in H. destruct H as ([[w1 req1] l1] & P & H).
    destruct (pending_head _ _ _ _ _ P) as (d & E & Hd). apply oseq_done in H. destruct H as ([w2 ts] & _ & H).
    assert (F : want (Some (req, false)) (ETurn :: l1 ++ [EFrame ts]) = Some (req1, false)).
    { change (ETurn :: l1 ++ [EFrame ts]) with ((ETurn :: l1) ++ [EFrame ts]). rewrite want_app, E. cbn. rewrite Hd. reflexivity. }
    cbv zeta in H. set (L := ETurn :: l1 ++ [EFrame ts]) in *. clearbody L.
    destruct p as [[]| |];
      [|apply oseq_done in H; destruct H as (? & _ & H)|apply oseq_done in H; destruct H as ([? [?|]] & _ & H)| | | | | |]; injection H as <- <-;
      rewrite ?want_app, F; cbn; (eexists; split; [reflexivity|]; intros ? X; try discriminate X; injection X as <-; reflexivity).
Qed.
Lemma run_want : forall ps t t' l, thread_run t ps = Done (t', l) ->
  exists y, want (Some (th_nmi t, false)) l = Some (y, false) /\ forall x, t' = Some x -> th_nmi x = y.
Proof.
  induction ps as [|p ps IH]; intros t t' l H; cbn [RalLoop.thread_run] in H.
  - injection H as <- <-. exists (th_nmi t). split; [reflexivity|]. intros x X. injection X as <-. reflexivity.
  - apply oseq_done in H. destruct H as ([t1 l1] & T & H). cbn [fst snd] in H. destruct (turn_want _ _ _ _ T) as (y & E & Y). destruct t1 as [t1|].
    + apply oseq_done in H. destruct H as ([t2 l2] & R & H). injection H as <- <-. cbn [fst snd]. destruct (IH _ _ _ R) as (z & E2 & Z2).
      exists z. split; [|exact Z2]. rewrite want_app, E. rewrite (Y _ eq_refl) in E2. exact E2.
    + injection H as <- <-. exists y. split; [exact E|discriminate].
Qed.

Theorem requests : forall w dbg ps t' l, thread_run (mkThread w false dbg) ps = Done (t', l) ->
  kept l /\ asked l /\ (count is_accept l <= count is_ask l)%nat.
Proof.
  intros w dbg ps t' l H. destruct (run_want _ _ _ _ H) as (y & E & _). cbn [th_nmi] in E.
  split; [exact (want_kept _ _ (ex_intro _ y E))|]. split; [exact (want_asked _ _ E)|].
  pose proof (want_count _ _ _ _ _ E) as C. cbn in C. lia.
Qed.

(** Left alone, it is the machine of C53. *)
Lemma steps_front : forall k w, runner_steps FL da mask bits dv (S k) n w =
  match runner_step FL da mask bits dv n w with
  | Done (w, d) => match runner_steps FL da mask bits dv k n w with Done (w, l) => Done (w, d :: l) | Panicked => Panicked | More => More end
  | Panicked => Panicked | More => More end.
Proof.
  induction k as [|k IH]; intros w.
  - cbn. destruct (runner_step FL da mask bits dv n w) as [| |[w' d]]; reflexivity.
  - change (runner_steps FL da mask bits dv (S (S k)) n w) with
      (match runner_steps FL da mask bits dv (S k) n w with Done (w, l) => match runner_step FL da mask bits dv n w with Done (w, d) => Done (w, l ++ [d]) | Panicked => Panicked | More => More end | x => x end).
    rewrite IH. destruct (runner_step FL da mask bits dv n w) as [| |[w' d]]; try reflexivity.
    cbn [runner_steps]. destruct (runner_steps FL da mask bits dv k n w') as [| |[w2 l]]; try reflexivity.
    destruct (runner_step FL da mask bits dv n w2) as [| |[w3 d3]]; reflexivity.
Qed.
Theorem left_alone : forall ps w, Forall idle ps ->
  match runner_steps FL da mask bits dv (List.length ps) n w with
  | Done (w', ts) => exists l, thread_run (mkThread w false false) ps = Done (Some (mkThread w' false false), l) /\ frames_of l = ts
  | Panicked => thread_run (mkThread w false false) ps = Panicked
  | More => thread_run (mkThread w false false) ps = More
  end.
Proof.
  induction ps as [|p ps IH]; intros w I; [exists []; split; reflexivity|]. inversion I as [|? ? Ip I']; subst. cbn [List.length]. rewrite steps_front.
  cbn [RalLoop.thread_run]. unfold RalLoop.turn, run_turn, pending_nmi. cbn [th_debug th_world th_nmi oseq].
  destruct (runner_step FL da mask bits dv n w) as [| |[w1 d]]; [reflexivity|reflexivity|]. cbn [oseq].
  assert (E : forall (x : outcome (option (thread Q D) * list event)), x = Done (Some (mkThread w1 false false), [ETurn; EFrame d]) ->
    match match runner_steps FL da mask bits dv (List.length ps) n w1 with Done (w, l) => Done (w, d :: l) | Panicked => Panicked | More => More end with
    | Done (w', ts) => exists l, oseq x (fun x => match fst x with None => Done x | Some t => oseq (thread_run t ps) (fun y => Done (fst y, snd x ++ snd y)) end) =
        Done (Some (mkThread w' false false), l) /\ frames_of l = ts
    | Panicked => oseq x (fun x => match fst x with None => Done x | Some t => oseq (thread_run t ps) (fun y => Done (fst y, snd x ++ snd y)) end) = Panicked
    | More => oseq x (fun x => match fst x with None => Done x | Some t => oseq (thread_run t ps) (fun y => Done (fst y, snd x ++ snd y)) end) = More
    end).
  { intros x ->. cbn [oseq fst snd]. specialize (IH w1 I'). destruct (runner_steps FL da mask bits dv (List.length ps) n w1) as [| |[w2 ts]].
    - rewrite IH. reflexivity.
    - rewrite IH. reflexivity.
    - destruct IH as (l & -> & Hl). eexists. split; [reflexivity|]. cbn. rewrite <- Hl. reflexivity. }
  destruct Ip as [->| ->]; apply E; reflexivity.
Qed.
(** A stopped computer stays as it is until it is told something. *)
Theorem stopped : forall ps w req, Forall quiet ps -> thread_run (mkThread w req true) ps = Done (Some (mkThread w req true), []).
Proof. induction ps as [|p ps IH]; intros w req I; [reflexivity|]. inversion I as [|? ? Ip I']; subst. rewrite Ip. cbn. rewrite (IH _ _ I'). reflexivity. Qed.
(** The end is the end, and only [Terminate] or nobody left to send makes it. *)
Lemma turn_end : forall t p l, turn t p = Done (None, l) -> stops p.
Proof.
  intros [w req dbg] p l H. unfold RalLoop.turn in H. cbn [th_debug th_world th_nmi] in H. unfold stops. destruct dbg.
  - destruct p as [m| |]; [|discriminate H|auto]. unfold debug_turn in H. apply oseq_done in H. destruct H as ([[w1 req1] l1] & _ & H). apply oseq_done in H. destruct H as (? & _ & H).
    destruct m; auto; try discriminate H; apply oseq_done in H; destruct H as (? & _ & H); discriminate H.
  - unfold run_turn in H. apply oseq_done in H. destruct H as ([[w1 req1] l1] & _ & H). apply oseq_done in H. destruct H as ([w2 ts] & _ & H).
    destruct p as [[]| |]; auto; try discriminate H; apply oseq_done in H; destruct H as (? & _ & H); discriminate H.
Qed.
Lemma turn_stops : forall t p t' l, stops p -> turn t p = Done (t', l) -> t' = None.
Proof.
  intros [w req dbg] p t' l S H. unfold RalLoop.turn in H. cbn [th_debug th_world th_nmi] in H. destruct dbg.
  - destruct S as [->| ->]; unfold debug_turn in H; apply oseq_done in H; destruct H as ([[w1 req1] l1] & _ & H); apply oseq_done in H; destruct H as (? & _ & H); injection H as <- _; reflexivity.
  - destruct S as [->| ->]; unfold run_turn in H; apply oseq_done in H; destruct H as ([[w1 req1] l1] & _ & H); apply oseq_done in H; destruct H as ([w2 ts] & _ & H); injection H as <- _; reflexivity.
Qed.
Theorem ended : forall ps t t' l, thread_run t ps = Done (t', l) ->
  (t' = None <-> Exists stops ps) /\
  (forall a p b, ps = a ++ p :: b -> stops p -> forall c, thread_run t (a ++ p :: c) = Done (None, l)).
Proof.
  induction ps as [|p ps IH]; intros t t' l H; cbn [RalLoop.thread_run] in H.
  - injection H as <- <-. split; [split; [discriminate|intros X; inversion X]|]. intros [|? ?] ? ? E; discriminate E.
  - apply oseq_done in H. destruct H as ([t1 l1] & T & H). cbn [fst snd] in H. destruct t1 as [t1|].
    + apply oseq_done in H. destruct H as ([t2 l2] & R & H). injection H as <- <-. cbn [fst snd]. destruct (IH _ _ _ R) as [[I1 I2] I3].
      assert (N : ~ stops p) by (intros S; pose proof (turn_stops _ _ _ _ S T); discriminate). split; [split|].
      * intros X. apply Exists_cons_tl. exact (I1 X).
      * intros X. inversion X; subst; [contradiction|]. exact (I2 H0).
      * intros a q b E S c. destruct a as [|x a]; injection E as -> E; [contradiction|]. cbn [app RalLoop.thread_run]. rewrite T. cbn [oseq fst snd]. rewrite (I3 _ _ _ E S c). reflexivity.
    + injection H as <- <-. pose proof (turn_end _ _ _ T) as S. split; [split; [intros _; apply Exists_cons_hd; exact S|reflexivity]|].
      intros a q b E _ c. destruct a as [|x a]; injection E as -> E; cbn [app RalLoop.thread_run]; rewrite T; reflexivity.
Qed.
(** A pause in debug mode is not seen by the machine. *)
Lemma run_app : forall a b t t' l, thread_run t (a ++ b) = Done (Some t', l) ->
  exists t1 l1 l2, thread_run t a = Done (Some t1, l1) /\ thread_run t1 b = Done (Some t', l2) /\ l = l1 ++ l2.
Proof.
  induction a as [|p a IH]; intros b t t' l H; cbn [app RalLoop.thread_run] in *.
  - exists t, [], l. auto.
  - apply oseq_done in H. destruct H as ([t1 l1] & T & H). cbn [fst snd] in H. rewrite T. cbn [oseq fst snd]. destruct t1 as [t1|]; [|discriminate H].
    apply oseq_done in H. destruct H as ([t2 l2] & R & H). injection H as E <-. cbn [fst snd] in *. subst t2. destruct (IH _ _ _ _ R) as (t3 & l3 & l4 & R3 & R4 & ->).
    rewrite R3. exists t3, (l1 ++ l3), l4. split; [reflexivity|]. split; [exact R4|]. apply app_assoc.
Qed.
Lemma alone_done : forall ps w t' l, Forall idle ps -> thread_run (mkThread w false false) ps = Done (t', l) ->
  exists w', runner_steps FL da mask bits dv (List.length ps) n w = Done (w', frames_of l) /\ t' = Some (mkThread w' false false).
Proof.
  intros ps w t' l I H. pose proof (left_alone ps w I) as L. destruct (runner_steps FL da mask bits dv (List.length ps) n w) as [| |[w' ts]].
  - rewrite L in H. discriminate H.
  - rewrite L in H. discriminate H.
  - destruct L as (l' & L & <-). rewrite L in H. injection H as <- <-. eauto.
Qed.
Lemma steps_app : forall a b w w1 l1 w2 l2, runner_steps FL da mask bits dv a n w = Done (w1, l1) -> runner_steps FL da mask bits dv b n w1 = Done (w2, l2) ->
  runner_steps FL da mask bits dv (a + b) n w = Done (w2, l1 ++ l2).
Proof.
  induction a as [|a IH]; intros b w w1 l1 w2 l2 A B.
  - injection A as <- <-. exact B.
  - cbn [Nat.add]. rewrite steps_front in *. destruct (runner_step FL da mask bits dv n w) as [| |[w' d]]; try discriminate A.
    destruct (runner_steps FL da mask bits dv a n w') as [| |[w3 l3]] eqn:E; try discriminate A. injection A as <- <-. rewrite (IH _ _ _ _ _ _ E B). reflexivity.
Qed.
Theorem paused : forall a o b c w t' l, Forall idle a -> enters o -> Forall quiet b -> Forall idle c ->
  thread_run (mkThread w false false) (a ++ [PMsg o] ++ b ++ [PMsg MContinue] ++ c) = Done (Some t', l) ->
  exists w', runner_steps FL da mask bits dv (List.length a + (1 + List.length c)) n w = Done (w', frames_of l) /\ t' = mkThread w' false false.
Proof.
  intros a o b c w t' l Ia Eo Qb Ic H.
  apply run_app in H. destruct H as (t1 & l1 & l2 & A & H & ->). destruct (alone_done _ _ _ _ Ia A) as (w1 & A' & E). injection E as ->.
  apply run_app in H. destruct H as (t2 & l3 & l4 & B & H & ->).
  assert (X : exists w2 ts, runner_step FL da mask bits dv n w1 = Done (w2, ts) /\ t2 = mkThread w2 false true /\ l3 = [ETurn; EFrame ts; EDebug]).
  { cbn [RalLoop.thread_run] in B. apply oseq_done in B. destruct B as ([t3 l5] & B & B'). unfold RalLoop.turn, run_turn, pending_nmi in B. cbn [th_debug th_world th_nmi oseq] in B.
    apply oseq_done in B. destruct B as ([w2 ts] & S & B). exists w2, ts. split; [exact S|].
    assert (Y : t3 = Some (mkThread w2 false true) /\ l5 = [ETurn; EFrame ts; EDebug]) by (destruct Eo as [->|[->| ->]]; injection B as <- <-; split; reflexivity).
    destruct Y as [-> ->]. cbn in B'. injection B' as <- <-. split; reflexivity. }
  destruct X as (w2 & ts & S & -> & ->).
  apply run_app in H. destruct H as (t3 & l5 & l6 & C & H & ->). rewrite (stopped _ _ _ Qb) in C. injection C as <- <-.
  apply run_app in H. destruct H as (t4 & l7 & l8 & C & H & ->).
  assert (X : t4 = mkThread w2 false false /\ l7 = [ETurn; ELeave]).
  { cbn [RalLoop.thread_run] in C. apply oseq_done in C. destruct C as ([t5 l9] & C & C'). unfold RalLoop.turn, debug_turn, pending_nmi in C. cbn [th_debug th_world th_nmi oseq] in C.
    apply oseq_done in C. destruct C as (? & _ & C). injection C as <- <-. cbn in C'. injection C' as <- <-. split; reflexivity. }
  destruct X as [-> ->]. destruct (alone_done _ _ _ _ Ic H) as (w3 & H' & E). injection E as ->. exists w3. split; [|reflexivity].
  unfold frames_of. rewrite flat_map_app. eapply steps_app; [exact A'|]. cbn [Nat.add]. rewrite steps_front, S, H'. reflexivity.
Qed.

(** What is done, in order. *)
Notation history := (history FL da mask bits dv search n hz).
Lemma history_app : forall a b w w1 w', history a w w1 -> history b w1 w' -> history (a ++ b) w w'.
Proof. intros a b w w1 w' A. revert b w'. induction A; intros b w2 B; [exact B|]. cbn. econstructor; [eassumption|]. auto. Qed.
Lemma history_one : forall e w w', does FL da mask bits dv search n hz e w w' -> history [e] w w'.
Proof. intros. econstructor; [eassumption|constructor]. Qed.
Lemma pending_history : forall w req w' req' l, pending_nmi FL mask bits dv w req = Done (w', req', l) -> history (ETurn :: l) w w' /\ kinds l = [].
Proof.
  intros w [|] w' req' l H; unfold pending_nmi in H.
  - apply oseq_done in H. destruct H as ([w1 r] & N & H). injection H as <- <- <-. split; [|reflexivity]. econstructor; [reflexivity|]. apply history_one. exists r. split; [exact N|].
    destruct r; split; intros X; congruence.
  - injection H as <- <- <-. split; [apply history_one|]; reflexivity.
Qed.
Lemma kinds_app : forall a b, kinds (a ++ b) = kinds a ++ kinds b.
Proof. intros. apply flat_map_app. Qed.
Definition mode (dbg : bool) : list poll -> list kind := if dbg then debugging else running.
Definition after (t : option (thread Q D)) (ps : list poll) : list kind := match t with Some t => mode (th_debug t) ps | None => [] end.
Lemma turn_does : forall t p t' l, turn t p = Done (t', l) ->
  (exists w', history l (th_world t) w' /\ forall x, t' = Some x -> th_world x = w') /\ (forall ps, mode (th_debug t) (p :: ps) = kinds l ++ after t' ps).
Proof.
  intros [w req dbg] p t' l H. unfold RalLoop.turn in H. cbn [th_debug th_world th_nmi] in *. destruct dbg.
  - destruct p as [m| |]; [|injection H as <- <-; split; [exists w; split; [constructor|intros x X; injection X as <-; reflexivity]|reflexivity]|].
    all: unfold debug_turn in H; apply oseq_done in H; destruct H as ([[w1 req1] l1] & P & H); destruct (pending_history _ _ _ _ _ P) as [P1 P2];
      apply oseq_done in H; destruct H as (? & _ & H); cbv zeta in H.
    all: assert (L2 : kinds (ETurn :: l1) = [KTurn]) by (change (kinds (ETurn :: l1)) with (KTurn :: kinds l1); rewrite P2; reflexivity).
    all: set (L := ETurn :: l1) in *; clearbody L.
    + destruct m.
      2: apply oseq_done in H; destruct H as (w2 & R & H).
      4-6: apply oseq_done in H; destruct H as ([w2 [d ts]] & R & H).
      all: injection H as <- <-; split; [|intros ps; rewrite kinds_app, L2; reflexivity].
      2, 4-6: exists w2; split; [eapply history_app; [exact P1|apply history_one; exact R]|intros x0 X; injection X as <-; reflexivity].
      all: exists w1; split; [eapply history_app; [exact P1|apply history_one; reflexivity]|intros x0 X; try discriminate X; injection X as <-; reflexivity].
    + injection H as <- <-. split; [exists w1; split; [eapply history_app; [exact P1|apply history_one; reflexivity]|discriminate]|]. intros ps. rewrite kinds_app, L2. reflexivity.
  - unfold run_turn in H. apply oseq_done in H. destruct H as ([[w1 req1] l1] & P & H). destruct (pending_history _ _ _ _ _ P) as [P1 P2].
    apply oseq_done in H. destruct H as ([w2 ts] & S & H). cbv zeta in H.
    assert (L1 : history (ETurn :: l1 ++ [EFrame ts]) w w2) by (eapply (history_app (ETurn :: l1)); [exact P1|apply history_one; exact S]).
    assert (L2 : kinds (ETurn :: l1 ++ [EFrame ts]) = [KTurn; KFrame]) by (change (ETurn :: l1 ++ [EFrame ts]) with ([ETurn] ++ l1 ++ [EFrame ts]); rewrite !kinds_app, P2; reflexivity).
    set (L := ETurn :: l1 ++ [EFrame ts]) in *. clearbody L.
    destruct p as [[]| |].
    2: apply oseq_done in H; destruct H as (w3 & R & H).
    3: apply oseq_done in H; destruct H as ([w3 r] & R & H).
    all: injection H as <- <-; split; [|intros ps; rewrite ?kinds_app, L2; reflexivity].
    2: exists w3; split; [eapply history_app; [exact L1|apply history_one; exact R]|intros x0 X; injection X as <-; reflexivity].
    2: { exists w3. split; [|intros x0 X; injection X as <-; reflexivity]. eapply history_app; [exact L1|]. econstructor; [reflexivity|]. apply history_one. exists r. split; [exact R|].
         destruct r; split; intros X; congruence. }
    all: exists w2; split; [first [exact L1|eapply history_app; [exact L1|apply history_one; reflexivity]]|intros x0 X; try discriminate X; injection X as <-; reflexivity].
Qed.
Theorem account : forall ps w req dbg t' l, thread_run (mkThread w req dbg) ps = Done (t', l) ->
  kinds l = (if dbg then debugging else running) ps /\ exists w', history l w w' /\ forall x, t' = Some x -> th_world x = w'.
Proof.
  induction ps as [|p ps IH]; intros w req dbg t' l H; cbn [RalLoop.thread_run] in H.
  - injection H as <- <-. split; [destruct dbg; reflexivity|]. exists w. split; [constructor|]. intros x X. injection X as <-. reflexivity.
  - apply oseq_done in H. destruct H as ([t1 l1] & T & H). cbn [fst snd] in H. destruct (turn_does _ _ _ _ T) as ((w1 & H1 & W1) & K). specialize (K ps). cbn [th_world th_debug] in *. destruct t1 as [[w2 req2 dbg2]|].
    + apply oseq_done in H. destruct H as ([t2 l2] & R & H). injection H as <- <-. cbn [fst snd]. destruct (IH _ _ _ _ _ R) as (K2 & w3 & H3 & W3). specialize (W1 _ eq_refl). cbn [th_world] in W1. subst w1.
      split; [rewrite kinds_app, K2; symmetry; exact K|]. exists w3. split; [eapply history_app; eassumption|exact W3].
    + injection H as <- <-. split; [symmetry; rewrite app_nil_r in K; exact K|]. exists w1. split; [exact H1|discriminate].
Qed.
End Loop.
