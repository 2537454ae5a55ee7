(** Comparison of clients over all histories. *)
From Coq Require Import ZifyBool ZifyNat ZifyN.
From Verif Require Import Base Nom Unicode Wire Structures Prims Messages Crypto Client Spec SpecBuild SpecCrypto SpecClient SpecTrace Lib Encode Decode RoundTrip Parse Samples FactsEncode FactsDecode FactsBuild DesKey RealPrims FactsCrypto SamplesClient History Reply FactsClient.

Lemma transcript_app cfg P h : forall c h', transcript cfg P c (h ++ h') = transcript cfg P c h ++ transcript cfg P (run cfg P c h) h'.
Proof. induction h as [|o h IH]; intros c h'; cbn [app transcript run fold_left]; [reflexivity|]. now rewrite IH. Qed.

Section Alike.
  Context (cfg : config) (P : prims) (c c' : client).
  Hypothesis Hn : forall s b, negociate_message (dress c s b) = negociate_message (dress c' s b).
  Hypothesis Hb : forall s b r, build_authenticate cfg P (dress c s b) r = build_authenticate cfg P (dress c' s b) r.
  Hypothesis Hf : forall s b a, finish_authenticate (dress c s b) a = finish_authenticate (dress c' s b) a.
  Lemma step_alike s b o : exists s' b' x,
    step cfg P (dress c s b) o = (dress c s' b', x) /\ step cfg P (dress c' s b) o = (dress c' s' b', x).
  Proof.
    destruct o as [|ch|r]; cbn [step].
    - unfold send_negociate. rewrite Hn. destruct (negociate_message (dress c' s b)) as [m|w]; cbn [obind]; [|eauto].
      destruct (negotiate_ser m []) as [[size buf]|w]; cbn [obind]; [|eauto].
      destruct (slice buf 0 size) as [o|w]; cbn [obind]; [|eauto].
      exists (StNegotiateSent m), buf, (OutBytes o). split; reflexivity.
    - exists (match s with StNegotiateSent n => StChallengeReceived n ch | _ => s end), b, OutUnit.
      destruct s; split; reflexivity.
    - unfold send_authenticate. rewrite Hb. destruct (build_authenticate cfg P (dress c' s b) r) as [a|w]; cbn [obind]; [|eauto].
      rewrite Hf. destruct (authenticate_ser cfg _ []) as [[n buf]|w]; cbn [obind]; [|eauto].
      set (a' := finish_authenticate _ _).
      exists (match s with StChallengeReceived n ch => StAuthenticateSent n ch a' | _ => s end), buf, (OutBytes buf).
      destruct s; split; reflexivity.
  Qed.
  Lemma dress_alike s b h : transcript cfg P (dress c s b) h = transcript cfg P (dress c' s b) h.
  Proof.
    revert s b. induction h as [|o h IH]; intros s b; [reflexivity|]. cbn [transcript].
    destruct (step_alike s b o) as (s' & b' & x & -> & ->). cbn [fst snd]. now rewrite IH.
  Qed.
  Lemma clients_alike : cl_state c = cl_state c' -> cl_buffer c = cl_buffer c' -> alike cfg P c c'.
  Proof.
    intros E1 E2 h. rewrite (dress_id c), (dress_id c') at 1.
    rewrite E1, E2. apply dress_alike.
  Qed.
End Alike.

