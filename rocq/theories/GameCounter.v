(** * Shipped skills for which a claim of C52-C62 fails *)

From Coq Require Import ZArith QArith List String Bool Lia.
From Verif Require Import Base BaseFacts Strings Types Lookup SpecCond CondFacts Library LibraryFacts
  SpecGame Py PyFacts GameLib GameFacts GameCheck.
Import ListNotations.
Open Scope string_scope.
Open Scope Z_scope.

(** Some skill called [n] of job [j]'s class satisfies [f], given all skills of the class. *)
Definition has (js : list loaded_job) (j n : string) (f : list skill -> skill -> bool) : bool :=
  existsb (fun x => if String.eqb (lj_job x) j
                    then existsb (fun s => if String.eqb (sk_name s) n then f (snd x) s else false) (snd x)
                    else false) js.
Definition has_part (js : list loaded_job) (j : string) (f : list skill -> skill -> bool) : bool :=
  existsb (fun x => if String.eqb (lj_job x) j then existsb (f (snd x)) (snd x) else false) js.

Definition no_part (q : skill -> bool) (l : list skill) : bool := forallb (all_parts 6 (fun p => negb (q p))) l.
Lemma no_part_sound q l s p : no_part q l = true -> In s l -> part_of p s -> q p = false.
Proof.
  unfold no_part. rewrite forallb_forall. intros H I P. specialize (H s I).
  apply (all_parts_sound _ p s P) in H. apply negb_true_iff, H.
Qed.

(** The effects concerned. *)
Definition dead_effect (all : list skill) (e : status_spec) : bool :=
  match se_allowlist e with
  | None => false
  | Some l => forallb (fun n => negb (reserved n)) l && no_part (fun p => smem (sk_name p) l) all
  end.
Definition dead (all : list skill) (s : skill) : bool := existsb (dead_effect all) (effects_of s).
Definition dead_part (n : string) (all : list skill) (s : skill) : bool :=
  some_part 6 (fun p => if String.eqb (sk_name p) n then dead all p else false) s.
Definition inert (n : string) (all : list skill) (s : skill) : bool :=
  some_part 6 (fun p => if String.eqb (sk_name p) n
    then existsb (fun e => neutralb e && no_part (fun q => if allowsb e (sk_name q) then mentionsb q n else false) all)
           (effects_of p)
    else false) s.
Definition err_is (e : err) {A} (x : res A) : bool :=
  match x, e with Err KeyError, KeyError => true | _, _ => false end.
Definition lone_combo (s : skill) : bool :=
  match sk_combo s with
  | TTuple [c] => match combo_actions c with [a] => String.eqb a "Enchanted Deux" | _ => false end
                  && negb (combo_auto_succeed c) && negb (break_all_combos_only c)
  | _ => false
  end.
Definition gets_better (s : skill) (a b : cond) : bool :=
  match get_damage_spec s (cond_modifier a), get_damage_spec s (cond_modifier b) with
  | Ok (Some x), Ok (Some y) => negb (Qle_bool (potency x * single_damage_mult x) (potency y * single_damage_mult y))
  | _, _ => false
  end.

Definition facts_at (r : Z) (l : lrank) (js : list loaded_job) : bool :=
  let lv90 := match l with L90 => true | _ => false end in
  has js "MCH" "Automaton Queen" (fun _ s => err_is KeyError (get_follow_up_skills s default_modifier))
  && (if 3 <=? r then
        has js "RDM" "Enchanted Moulinet Trois"
          (fun all s => lone_combo s && no_part (fun p => String.eqb (sk_name p) "Enchanted Deux") all) else true)
  && has js "AST" "Swiftcast" dead && has js "SCH" "Swiftcast" dead && has js "SGE" "Swiftcast" dead
  && (if (3 <=? r) && lv90 then
        has js "MNK" "Snap Punch"
          (fun _ s => gets_better s ["Coeurl's Fury"; "No Positional"] ["Coeurl's Fury"]) else true)
  && (if (3 <=? r) && lv90 then
        has_part js "PCT" (dead_part "Rainbow Bright")
        && (if r =? 6 then true else
            has_part js "VPR" (dead_part "Poised for Twinfang"))
      else true)
  && (if (3 <=? r) && negb (r =? 6) then
        has_part js "VPR" (inert "Fellhunter's Venom") && has_part js "VPR" (inert "Fellskin's Venom") else true)
  && (if r =? 1 then
        has_part js "BLM" (inert "Firestarter")
        && has js "BLM" "Fire" (fun _ s => gets_better s ["3 Astral Fire"] ["3 Astral Fire"; "Sharpcast"])
      else true)
  && forallb (fun x => Bool.eqb (match snd x with [] => true | _ => false end) (String.eqb (lj_job x) "VPR" && (r =? 6))) js.
