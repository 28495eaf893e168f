(** C66, continued: the command line of wg-quick on OpenBSD. *)
From Coq Require Import String ZArith List Bool Lia.
From Verif Require Import Base Ctype Cstr CstrProofs Types Config ConfigSpec ConfigProofs Uapi Bash Quick QuickSpec QuickProofs PropQuick QuickRun QuickRunSpec QuickUpProofs PropQuickUp QuickSave QuickMain QuickMainSpec PropQuickMain
  QuickReloadSpec QuickRouteSpec PropQuickReload Sh BsdRoutes BsdRoutesSpec OpenQuick OpenSpec PropOpenQuick.
From Verif Require FreeSpec.
Import ListNotations.
Open Scope Z_scope.

Section Main.
Variables (sys : system) (glob : list Z -> list (list Z)) (fuel : nat) (amp : bool) (fs : files) (bash self : list Z).
Let main uid := OpenQuick.main sys glob fuel amp fs uid bash self.

(** *** The command line *)
Theorem C66_help : forall uid args, help args -> main uid args = mk_ran (Ends 0) [] [Usage] [].
Proof. intros uid args [->|[->| ->]]; reflexivity. Qed.
Theorem C66_usage : forall uid args, ~ help args -> (forall v a, ~ taken args v a) -> main uid args = mk_ran (Ends 1) [] [Usage] [].
Proof.
  intros uid args Hh Ht. unfold main, OpenQuick.main. destruct args as [|v [|a [|b l]]]; [reflexivity| | |reflexivity].
  - unfold help in Hh. rewrite !beq_false; [reflexivity| | |]; intros ->; apply Hh; auto.
  - assert (Nv : ~ In v verbs) by (intro Hi; apply (Ht v a); split; [reflexivity|exact Hi]). rewrite !beq_false; [reflexivity| | | |]; intros ->; apply Nv; cbn [verbs In]; auto.
Qed.
(** Users other than root: the script starts over under doas with the arguments it was given. *)
Theorem C66_doas : forall uid args v a, uid <> 0 -> taken args v a -> main uid args = mk_ran (Becomes ([str "doas"; str "--"; bash; str "--"; self] ++ args)) [] [] [].
Proof.
  intros uid args v a Hu [-> Hv]. apply Z.eqb_neq in Hu. destruct Hv as [<-|[<-|[<-|[<-|[]]]]]; unfold main, OpenQuick.main, OpenQuick.with_options; rewrite Hu; reflexivity.
Qed.
(** *** The file *)
Theorem C66_no_file : forall args v arg, taken args v arg -> (forall ifc conf o, ~ loads glob fs arg ifc conf o) -> exists err, main 0 args = mk_ran (Ends 1) [] err [].
Proof.
  intros args v arg [-> Hv] Hn. pose proof (find_options_inv glob fs arg) as F. destruct (find_options glob fs arg) as [err [st|[[ifc conf] o]]] eqn:Ef; [|exfalso; exact (Hn _ _ _ F)].
  destruct F as [-> _]. exists err. destruct Hv as [<-|[<-|[<-|[<-|[]]]]]; unfold main, OpenQuick.main, OpenQuick.with_options; cbn [Z.eqb]; rewrite Ef; reflexivity.
Qed.
Definition ends_as (x : outcome) (r : ran) (conf : list Z) : Prop :=
  r = mk_ran (match fst x with Some st => Ends st | None => Endless end) [] (warnings fs conf) (snd x).
(** With a file, each verb does its work (C66_up, C66_down, C66_save) on the interface the file is named after. *)
Theorem C66_verbs : forall arg ifc conf o, loads glob fs arg ifc conf o ->
  ends_as (cmd_up sys glob fuel ifc o (mk_sh [] vars0)) (main 0 [str "up"; arg]) conf /\
  ends_as (cmd_down sys ifc o conf amp (mk_sh [] vars0)) (main 0 [str "down"; arg]) conf /\
  ends_as (cmd_save sys ifc o conf amp (mk_sh [] vars0)) (main 0 [str "save"; arg]) conf.
Proof.
  intros arg ifc conf o H. apply find_options_loads in H. split; [|split]; unfold main, OpenQuick.main, OpenQuick.with_options; cbn [Z.eqb]; rewrite H; reflexivity.
Qed.
(** strip writes the lines that are not wg-quick's own, in order, and runs nothing; wg reads from that what it would read from those lines. *)
Theorem C66_strip : forall arg ifc conf text o lines kept, loads_text glob fs arg ifc conf text o -> ~ In 0 text -> file_lines text lines -> others lines kept ->
  exists out, main 0 [str "strip"; arg] = mk_ran (Ends 0) out (warnings fs conf) [] /\
    (exists ls, Forall2 (trimmed blank) kept ls /\ out = newlines ls ++ [10]) /\ (forall e append, read_config e append (getlines out) = read_config e append kept).
Proof.
  intros arg ifc conf text o lines kept HL H0 Hl Hk. pose proof (loads_text_parse _ _ _ _ _ _ _ HL) as Ho. destruct HL as [HL _]. apply find_options_loads in HL.
  exists (handed o). split; [unfold main, OpenQuick.main, OpenQuick.with_options; cbn [Z.eqb]; rewrite HL; reflexivity|]. split; [|intros e append; eapply C40_wg_reads_the_rest; eassumption].
  destruct (C40_handed glob text lines kept o H0 Hl Hk Ho) as (ls & A & B). exists ls. split; [exact A|]. unfold handed. rewrite B. reflexivity.
Qed.
(** *** Success *)
Lemma trap_nonzero : forall P st0 cl st, trap P st0 cl st -> FreeSpec.undisturbed cl -> st0 <> 0 -> st <> 0.
Proof.
  intros P st0 cl st [(_ & _ & ->)|(c1 & ev & -> & _ & [(_ & _ & N & ->)|S])] U N0; [exact N0|exact N|]. exfalso. apply Forall_app in U as [_ U]. inversion U; subst. congruence.
Qed.
Lemma no_hit : forall (a : history) ev b st, FreeSpec.undisturbed (a ++ ev :: b) -> a_signal (snd ev) = Some st -> False.
Proof. intros a ev b st U S. apply Forall_app in U as [_ U]. inversion U; subst. congruence. Qed.
(** Success is reported only after the interface, which did not exist, has been created and what the lines of the file say has been done, in order and without failure; the
    interface is left in place. *)
Theorem C66_up_whole : forall arg, let r := main 0 [str "up"; arg] in r_end r = Ends 0 -> FreeSpec.undisturbed (r_hist r) -> (forall conf text err, f_read fs conf = Some (text, err) -> ~ In 0 text) ->
  exists ifc conf text lines o a cr ri p rs,
    loads_text glob fs arg ifc conf text o /\ file_lines text lines /\ says_lines glob lines o /\
    r_hist r = (list_all, a) :: cr ++ FreeSpec.all_steps p /\ no_real_name ifc (a_output a) /\ creation ifc cr ri /\ in_order glob ri ifc o rs p /\ Forall fine (r_hist r).
Proof.
  intros arg r He U H0. pose proof (find_options_inv glob fs arg) as F. destruct (find_options glob fs arg) as [err [st|[[ifc conf] o]]] eqn:Ef.
  { exfalso. destruct F as [-> _]. unfold r, main, OpenQuick.main, OpenQuick.with_options in He. cbn [Z.eqb] in He. rewrite Ef in He. discriminate He. }
  destruct (C66_verbs _ _ _ _ F) as (Er & _ & _). fold r in Er. unfold ends_as in Er. assert (L := F). destruct F as [path real text er Hp Hx Hn Hr Hc Ht Ho].
  assert (LT : loads_text glob fs arg ifc conf text o) by (split; [exact L|exists er; exact Ht]). destruct (loads_says glob fs arg ifc conf text o LT (H0 _ _ _ Ht)) as (lines & Hl & Hs).
  destruct (cmd_up sys glob fuel ifc o (mk_sh [] vars0)) as [[st|] h] eqn:Ec; rewrite Er in He, U; cbn [fst snd r_end r_hist] in He, U; [|discriminate He]. assert (st = 0) by congruence. subst st.
  destruct (C66_up sys glob fuel ifc o [] h 0 Ec) as (a & q & -> & X). inversion U as [|? ? Ua Uq]; subst. cbn [snd] in Ua.
  destruct X as [(X & _)|[(_ & _ & _ & X)|(Sg & Nr & X)]]; [congruence|discriminate X|].
  destruct X as [(cr & ri & p & rs & -> & Cr & IO & Fi & _)|[X|[X|[X|[X|X]]]]].
  - exists ifc, (captured (real ++ [10])), text, lines, o, a, cr, ri, p, rs. split; [exact LT|]. split; [exact Hl|]. split; [exact Hs|]. rewrite Er. cbn [r_hist snd]. split; [reflexivity|]. split; [exact Nr|]. split; [exact Cr|]. split; [exact IO|].
    constructor; [|exact Fi]. split; [exact Sg|]. right. right. left. reflexivity.
  - exfalso. destruct X as (cr & cl & -> & _ & _ & T). apply Forall_app in Uq as [_ Uq]. exact (trap_nonzero _ _ _ _ T Uq ltac:(discriminate) eq_refl).
  - exfalso. destruct X as (cr & ev & st0 & c1 & st1 & c2 & -> & _ & S & _). exact (no_hit _ _ _ _ Uq S).
  - exfalso. destruct X as (cr & ri & fwd & ev & st0 & cl & -> & _ & _ & _ & (_ & _ & N & ->) & T). apply Forall_app in Uq as [_ Uq]. apply Forall_app in Uq as [_ Uq]. inversion Uq; subst. exact (trap_nonzero _ _ _ _ T ltac:(assumption) N eq_refl).
  - exfalso. destruct X as (cr & ri & p & rs & cl & -> & _ & _ & _ & T). apply Forall_app in Uq as [_ Uq]. apply Forall_app in Uq as [_ Uq]. exact (trap_nonzero _ _ _ _ T Uq ltac:(discriminate) eq_refl).
  - exfalso. destruct X as (cr & ri & fwd & ev & st0 & c1 & st1 & c2 & -> & _ & _ & _ & S & _). apply Forall_app in Uq as [_ Uq]. exact (no_hit _ _ _ _ Uq S).
Qed.
End Main.

Print Assumptions C66_help.
Print Assumptions C66_usage.
Print Assumptions C66_doas.
Print Assumptions C66_no_file.
Print Assumptions C66_verbs.
Print Assumptions C66_strip.
Print Assumptions C66_up_whole.
