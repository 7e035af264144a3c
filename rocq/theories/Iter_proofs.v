From Verif Require Import Iter_spec.

Lemma seq_decodes {A} (R : A -> bytes -> Prop) (parse : bytes -> out A * bytes) :
  (forall x b, R x b -> b <> []) ->
  (forall x b rest, bytes_ok (b ++ rest) -> R x b -> parse (b ++ rest) = (Ok x, rest)) ->
  (forall data x rest, bytes_ok data -> parse data = (Ok x, rest) -> exists b, R x b /\ data = b ++ rest) ->
  (forall data, bytes_ok data -> fst (parse data) <> Panic) ->
  decodes R (seq_next parse).
Proof.
  intros Hne Hc Hs Hp. split.
  - intros l data Hb H. induction H as [|x b l data Hx Hl IH]; [apply runs_done; reflexivity|].
    eapply runs_more; [|apply IH; apply bytes_ok_app in Hb; tauto].
    unfold seq_next. pose proof (Hne x b Hx). destruct b as [|y b]; [congruence|]. cbn [app].
    specialize (Hc x (y :: b) data Hb Hx). cbn [app] in Hc. rewrite Hc. reflexivity.
  - intro data. assert (Hl : (length data <= length data)%nat) by lia. revert Hl. generalize (length data) at 2. intro k. revert data.
    induction k as [|k IH]; intros data Hk Hb.
    + destruct data; [|cbn in Hk; lia]. exists [], false, []. split; [apply runs_done; reflexivity|]. split; [constructor|reflexivity].
    + destruct data as [|y data0] eqn:Ed; [exists [], false, []; split; [apply runs_done; reflexivity|]; split; [constructor|reflexivity]|].
      rewrite <- Ed in *. assert (Hn : data <> []) by (subst; congruence).
      assert (En : seq_next parse data = match parse data with (Ok x, d) => (Ok (Some x), d) | (Err, _) => (Err, []) | (Panic, d) => (Panic, d) end)
        by (rewrite Ed; reflexivity).
      destruct (parse data) as [r rest] eqn:E. specialize (Hp data Hb). rewrite E in Hp. cbn [fst] in Hp.
      destruct r as [x| |]; [| |congruence].
      * destruct (Hs data x rest Hb E) as (b & Hx & Hd). pose proof (Hne x b Hx).
        destruct (IH rest) as (l & e & post & Hr & Hso & He).
        { rewrite Hd, app_length in Hk. destruct b; [congruence|cbn in Hk; lia]. }
        { rewrite Hd in Hb. apply bytes_ok_app in Hb. tauto. }
        exists (x :: l), e, post. split; [eapply runs_more; eassumption|]. split; [rewrite Hd; constructor; assumption|exact He].
      * exists [], true, data. split; [apply runs_err; exact En|]. split; [constructor|]. split; [exact Hn|].
        intros x b tl Hd Hx. rewrite Hd in E, Hb. rewrite (Hc x b tl Hb Hx) in E. discriminate.
Qed.
