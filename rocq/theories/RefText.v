(** What the panic on a reference to nothing says. *)
From Verif Require Import Base OasModel MethodModel OpModel RefSpec RefProofs.

Lemma missing_item_n {A} (get : components -> list (str * ref_or A)) comps n r s k c :
  refers_n get comps n r (Ref s) -> comps = Some c -> last_segment s k -> assoc k (get c) = None ->
  item_n (S n) get comps r = Some (Panic (lit "key " ++ k ++ lit " is missing")).
Proof.
  intros H Hc Hk Ha. remember (Ref s) as e eqn:Ee. induction H as [r|n r r' r'' Hf _ IH].
  - rewrite Ee. cbn [item_n]. apply after_last_slash_Some in Hk. rewrite Hk. rewrite Hc at 1. now rewrite Ha.
  - specialize (IH Ee). destruct Hf as (s' & k' & c' & -> & Hc' & Hk' & Ha'). rewrite Hc in Hc'. injection Hc' as <-.
    remember (S n) as f. cbn [item_n]. apply after_last_slash_Some in Hk'. rewrite Hk'. rewrite Hc at 1. rewrite Ha'. exact IH.
Qed.

Lemma item_missing {A} (get : components -> list (str * ref_or A)) comps n r s k c :
  refers_n get comps n r (Ref s) -> comps = Some c -> last_segment s k -> assoc k (get c) = None ->
  item get comps r = Panic (lit "key " ++ k ++ lit " is missing").
Proof.
  intros H Hc Hk Ha. pose proof (missing_item_n get comps n r s k c H Hc Hk Ha) as E. unfold item.
  set (size := match comps with Some c => length (get c) | None => O end).
  destruct (item_n (S size) get comps r) as [o|] eqn:E'.
  - apply (item_n_mono get comps _ (S n + S size)) in E; [|lia]. apply (item_n_mono get comps _ (S n + S size)) in E'; [|lia]. congruence.
  - exfalso. apply item_n_none in E' as (r' & E'). apply long_chain_endless in E'. apply (endless_item_n get comps (S n)) in E'. congruence.
Qed.
