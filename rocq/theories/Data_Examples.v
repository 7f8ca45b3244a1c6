(** * The shipped example rotations.

    Generated by tools/gen_examples.py from example_rotations/. *)

From Coq Require Import ZArith QArith List String.
From Verif Require Import Float Csv Examples.
Import ListNotations.
Open Scope string_scope.
Open Scope Z_scope.

(** example_rotations/tank/war_data.py lines 6-132 and example_rotations/tank/war.py lines 9-23 *)
Definition war_examples : example_file := mkExampleFile true
  [("WAR", [(90, mkExample 132 3330 2182 940 2596 400 (Some 601) "WAR"
      []
      ["Tomahawk"; "Infuriate"; "Heavy Swing"; "Maim"; "Grade 8 Tincture"; "Storm's Eye"; "Inner Release";
       "Inner Chaos"; "Upheaval"; "Onslaught"; "Primal Rend"; "Inner Chaos"; "Onslaught"; "Fell Cleave";
       "Onslaught"; "Fell Cleave"; "Fell Cleave"; "Heavy Swing"; "Maim"; "Storm's Path"; "Fell Cleave";
       "Inner Chaos"]
      "6.55" None); (100, mkExample 146 4839 2525 1176 3253 420 (Some 868) "WAR"
      []
      ["Tomahawk"; "Infuriate"; "Heavy Swing"; "Maim"; "Storm's Eye"; "Inner Release"; "Grade 2 Gemdraught";
       "Inner Chaos"; "Upheaval"; "Onslaught"; "Primal Rend"; "Onslaught"; "Primal Ruination"; "Onslaught";
       "Fell Cleave"; "Fell Cleave"; "Fell Cleave"; "Primal Wrath"; "Infuriate"; "Inner Chaos"; "Heavy Swing";
       "Maim"; "Storm's Path"; "Fell Cleave"; "Infuriate"; "Inner Chaos"]
      "7.05" None)]);
    ("WAR Party Buffs", [(90, mkExample 132 3330 2182 940 2596 400 (Some 601) "WAR"
      [mkParty (dec 63 10) "Chain Stratagem" "SCH" None; mkParty (dec 71 10) "Battle Litany" "DRG" None;
       mkParty (dec 8 10) "Arcane Circle" "RPR" None; mkParty (dec 628 100) "Embolden" "RDM" None]
      ["Tomahawk"; "Infuriate"; "Heavy Swing"; "Maim"; "Grade 8 Tincture"; "Storm's Eye"; "Inner Release";
       "Inner Chaos"; "Upheaval"; "Onslaught"; "Primal Rend"; "Inner Chaos"; "Onslaught"; "Fell Cleave";
       "Onslaught"; "Fell Cleave"; "Fell Cleave"; "Heavy Swing"; "Maim"; "Storm's Path"; "Fell Cleave";
       "Inner Chaos"]
      "6.55" None)])].

(** example_rotations/tank/pld_data.py lines 6-80 and example_rotations/tank/pld.py lines 9-23 *)
Definition pld_examples : example_file := mkExampleFile true
  [("PLD", [(90, mkExample 132 3311 2182 940 2596 400 (Some 601) "PLD"
      []
      ["Holy Spirit"; "Fast Blade"; "Grade 8 Tincture"; "Riot Blade"; "Royal Authority"; "Fight or Flight";
       "Requiescat"; "Goring Blade"; "Circle of Scorn"; "Expiacion"; "Confiteor"; "Intervene"; "Blade of Faith";
       "Intervene"; "Blade of Truth"; "Blade of Valor"; "Holy Spirit"; "Atonement"; "Atonement"; "Atonement"]
      "6.55" None); (100, mkExample 146 4820 2310 1470 3174 420 (Some 868) "PLD"
      []
      ["Holy Spirit"; "Fast Blade"; "Riot Blade"; "Grade 2 Gemdraught"; "Royal Authority"; "Fight or Flight";
       "Imperator"; "Confiteor"; "Circle of Scorn"; "Expiacion"; "Blade of Faith"; "Intervene"; "Blade of Truth";
       "Intervene"; "Blade of Valor"; "Blade of Honor"; "Goring Blade"; "Atonement"; "Supplication"; "Sepulchre";
       "Holy Spirit"]
      "7.05" None)])].

(** example_rotations/tank/gnb_data.py lines 6-80 and example_rotations/tank/gnb.py lines 9-23 *)
Definition gnb_examples : example_file := mkExampleFile true
  [("GNB", [(90, mkExample 132 3311 2182 940 2596 400 (Some 601) "GNB"
      []
      ["Keen Edge"; "Grade 8 Tincture"; "Brutal Shell"; "No Mercy"; "Bloodfest"; "Gnashing Fang"; "Jugular Rip";
       "Sonic Break"; "Blasting Zone"; "Bow Shock"; "Double Down"; "Rough Divide"; "Savage Claw"; "Abdomen Tear";
       "Rough Divide"; "Wicked Talon"; "Eye Gouge"; "Solid Barrel"; "Burst Strike"; "Hypervelocity"; "Keen Edge"]
      "6.55" (Some "6.55")); (100, mkExample 146 4820 2310 1470 3174 420 (Some 868) "GNB"
      []
      ["Lightning Shot"; "Bloodfest"; "Keen Edge"; "Grade 2 Gemdraught"; "Brutal Shell"; "No Mercy"; "Sonic Break";
       "Bow Shock"; "Double Down"; "Blasting Zone"; "Gnashing Fang"; "Jugular Rip"; "Savage Claw"; "Abdomen Tear";
       "Wicked Talon"; "Eye Gouge"; "Reign of Beasts"; "Noble Blood"; "Lion Heart"]
      "7.05" None)])].

(** example_rotations/tank/drk_data.py lines 6-91 and example_rotations/tank/drk.py lines 9-23 *)
Definition drk_examples : example_file := mkExampleFile true
  [("DRK", [(90, mkExample 132 3311 2182 940 2596 400 (Some 601) "DRK"
      []
      ["Grade 8 Tincture"; "Hard Slash"; "Edge of Shadow"; "Syphon Strike"; "Delirium"; "Souleater";
       "Living Shadow"; "Hard Slash"; "Salted Earth"; "Edge of Shadow"; "Bloodspiller"; "Shadowbringer";
       "Edge of Shadow"; "Bloodspiller"; "Carve and Spit"; "Plunge"; "Bloodspiller"; "Shadowbringer";
       "Edge of Shadow"; "Syphon Strike"; "Salt and Darkness"; "Edge of Shadow"; "Souleater"; "Plunge";
       "Hard Slash"; "Syphon Strike"; "Edge of Shadow"; "Souleater"; "Bloodspiller"]
      "6.55" (Some "6.55")); (100, mkExample 146 4839 2310 1470 3174 420 (Some 868) "DRK"
      []
      ["Unmend"; "Grade 2 Gemdraught"; "Hard Slash"; "Edge of Shadow"; "Living Shadow"; "Syphon Strike";
       "Souleater"; "Delirium"; "Disesteem"; "Salted Earth"; "Edge of Shadow"; "Scarlet Delirium"; "Shadowbringer";
       "Edge of Shadow"; "Comeuppance"; "Carve and Spit"; "Edge of Shadow"; "Torcleaver"; "Shadowbringer";
       "Edge of Shadow"; "Bloodspiller"; "Salt and Darkness"]
      "7.05" None)])].

(** example_rotations/healer/whm_data.py lines 6-73 and example_rotations/healer/whm.py lines 13-34 *)
Definition whm_examples : example_file := mkExampleFile false
  [("WHM", [(90, mkExample 132 3369 1941 580 2502 1296 None "WHM"
      []
      ["Grade 8 Tincture"; "Glare III"; "Dia"; "Glare III"; "Glare III"; "Presence of Mind"; "Glare III"; "Assize";
       "Glare III"; "Glare III"; "Glare III"; "Glare III"; "Glare III"; "Glare III"; "Glare III"; "Glare III";
       "Glare III"; "Glare III"]
      "6.55" (Some "6.55")); (100, mkExample 146 4883 2831 906 3041 528 None "WHM"
      []
      ["Glare III"; "Grade 2 Gemdraught"; "Dia"; "Glare III"; "Glare III"; "Presence of Mind"; "Glare IV";
       "Assize"; "Glare IV"; "Glare III"; "Glare III"; "Glare III"; "Glare III"; "Glare III"; "Glare III";
       "Glare IV"; "Dia"]
      "7.05" None)])].

(** example_rotations/healer/sge_data.py lines 5-69 and example_rotations/healer/sge.py lines 13-34 *)
Definition sge_examples : example_file := mkExampleFile false
  [("SGE", [(90, mkExample 132 3369 1941 580 2502 1296 None "SGE"
      []
      ["Grade 8 Tincture"; "Dosis III"; "Eukrasia"; "Eukrasian Dosis III"; "Dosis III"; "Dosis III"; "Phlegma III";
       "Phlegma III"; "Dosis III"; "Dosis III"; "Dosis III"; "Dosis III"; "Dosis III"]
      "6.55" (Some "6.55")); (100, mkExample 146 4883 2831 1014 3041 420 None "SGE"
      []
      ["Eukrasia"; "Grade 2 Gemdraught"; "Toxikon II"; "Eukrasian Dosis III"; "Dosis III"; "Dosis III";
       "Dosis III"; "Phlegma III"; "Psyche"; "Phlegma III"; "Dosis III"; "Dosis III"; "Dosis III"; "Dosis III";
       "Eukrasia"; "Eukrasian Dosis III"; "Dosis III"; "Dosis III"; "Dosis III"]
      "7.05" None)])].

(** example_rotations/healer/sch_data.py lines 5-83 and example_rotations/healer/sch.py lines 9-23 *)
Definition sch_examples : example_file := mkExampleFile true
  [("SCH", [(90, mkExample 132 3369 2087 832 2454 946 None "SCH"
      []
      ["Grade 8 Tincture"; "Broil IV"; "Biolysis"; "Aetherflow"; "Broil IV"; "Broil IV"; "Chain Stratagem";
       "Broil IV"; "Energy Drain"; "Broil IV"; "Energy Drain"; "Broil IV"; "Energy Drain"; "Broil IV"; "Broil IV";
       "Energy Drain"; "Broil IV"; "Energy Drain"; "Broil IV"; "Energy Drain"; "Broil IV"; "Broil IV"; "Broil IV"]
      "6.55" (Some "6.55")); (100, mkExample 146 4883 2831 1014 3041 420 None "SCH"
      []
      ["Broil IV"; "Grade 2 Gemdraught"; "Biolysis"; "Dissipation"; "Broil IV"; "Chain Stratagem"; "Broil IV";
       "Energy Drain"; "Broil IV"; "Energy Drain"; "Broil IV"; "Energy Drain"; "Broil IV"; "Aetherflow";
       "Broil IV"; "Baneful Impaction"; "Broil IV"; "Energy Drain"; "Broil IV"; "Energy Drain"; "Broil IV";
       "Energy Drain"; "Biolysis"]
      "7.05" None)])].

(** example_rotations/healer/ast_data.py lines 5-44 and example_rotations/healer/ast.py lines 13-34 *)
Definition ast_examples : example_file := mkExampleFile false
  [("AST", [(100, mkExample 146 4883 2831 906 3041 528 None "AST"
      []
      ["Earthly Star"; "Fall Malefic"; "Grade 2 Gemdraught"; "Combust III"; "Lightspeed"; "Fall Malefic";
       "Fall Malefic"; "Divination"; "the Balance"; "Fall Malefic"; "Lord of Crowns"; "Umbral Draw";
       "Fall Malefic"; "the Spear"; "Oracle"; "Fall Malefic"; "Fall Malefic"; "Fall Malefic"; "Fall Malefic";
       "Fall Malefic"; "Combust III"; "Fall Malefic"]
      "7.05" None)])].

(** example_rotations/ranged/brd_data.py lines 6-81 and example_rotations/ranged/brd.py lines 9-23 *)
Definition brd_examples : example_file := mkExampleFile true
  [("BRD", [(90, mkExample 132 3379 1885 1344 2598 479 None "BRD"
      []
      ["Grade 8 Tincture"; "Stormbite"; "The Wanderer's Minuet"; "Raging Strikes"; "Caustic Bite";
       "Empyreal Arrow"; "Bloodletter"; "Refulgent Arrow"; "Radiant Finale"; "Battle Voice"; "Refulgent Arrow";
       "Sidewinder"; "Refulgent Arrow"; "Barrage"; "Refulgent Arrow"; "Burst Shot"; "Refulgent Arrow";
       "Empyreal Arrow"; "Iron Jaws"; "Pitch Perfect"]
      "6.55" None); (100, mkExample 146 4886 2091 2080 3177 474 None "BRD"
      []
      ["Stormbite"; "The Wanderer's Minuet"; "Empyreal Arrow"; "Caustic Bite"; "Wait 0.90s"; "Battle Voice";
       "Burst Shot"; "Radiant Finale"; "Raging Strikes"; "Burst Shot"; "Heartbreak Shot"; "Radiant Encore";
       "Barrage"; "Refulgent Arrow"; "Sidewinder"; "Resonant Arrow"; "Empyreal Arrow"; "Refulgent Arrow";
       "Burst Shot"; "Iron Jaws"; "Heartbreak Shot"; "Burst Shot"; "Pitch Perfect"]
      "7.05" None)])].

(** example_rotations/ranged/dnc_data.py lines 6-81 and example_rotations/ranged/dnc.py lines 9-23 *)
Definition dnc_examples : example_file := mkExampleFile true
  [("DNC", [(90, mkExample 132 3379 1952 1380 2557 436 None "DNC"
      []
      ["Grade 8 Tincture"; "Technical Step"; "Step Action"; "Step Action"; "Step Action"; "Step Action";
       "Quadruple Technical Finish"; "Devilment"; "Starfall Dance"; "Flourish"; "Fan Dance III"; "Tillana";
       "Fan Dance IV"; "Fountainfall"; "Fan Dance"; "Fan Dance III"; "Standard Step"; "Step Action"; "Step Action";
       "Double Standard Finish"]
      "6.55" None); (100, mkExample 146 4886 2091 2134 3177 420 None "DNC"
      []
      ["Standard Step"; "Step Action"; "Step Action"; "Grade 2 Gemdraught"; "Double Standard Finish";
       "Technical Step"; "Step Action"; "Step Action"; "Step Action"; "Step Action"; "Quadruple Technical Finish";
       "Devilment"; "Tillana"; "Flourish"; "Dance of the Dawn"; "Fan Dance IV"; "Last Dance"; "Fan Dance III";
       "Finishing Move"; "Starfall Dance"; "Fountainfall"; "Reverse Cascade"; "Fountainfall"; "Reverse Cascade"]
      "7.05" None)])].

(** example_rotations/ranged/mch_data.py lines 6-103 and example_rotations/ranged/mch.py lines 9-23 *)
Definition mch_examples : example_file := mkExampleFile true
  [("MCH", [(90, mkExample 132 3376 2114 1254 2557 400 None "MCH"
      []
      ["Grade 8 Tincture"; "Heated Split Shot"; "Gauss Round"; "Ricochet"; "Drill"; "Barrel Stabilizer";
       "Heated Slug Shot"; "Ricochet"; "Heated Clean Shot"; "Reassemble"; "Gauss Round"; "Air Anchor";
       "Reassemble"; "Wildfire"; "Chain Saw"; "Automaton Queen"; "Hypercharge"; "Heat Blast"; "Ricochet";
       "Heat Blast"; "Gauss Round"; "Heat Blast"; "Ricochet"; "Heat Blast"; "Gauss Round"; "Heat Blast";
       "Ricochet"; "Drill"; "Ricochet"; "Heated Split Shot"; "Heated Slug Shot"; "Heated Clean Shot"]
      "6.55" None); (100, mkExample 146 4883 2091 2134 3177 420 None "MCH"
      []
      ["Reassemble"; "Grade 2 Gemdraught"; "Air Anchor"; "Checkmate"; "Double Check"; "Drill"; "Barrel Stabilizer";
       "Chain Saw"; "Excavator"; "Automaton Queen"; "Reassemble"; "Drill"; "Checkmate"; "Wildfire";
       "Full Metal Field"; "Double Check"; "Hypercharge"; "Blazing Shot"; "Checkmate"; "Blazing Shot";
       "Double Check"; "Blazing Shot"; "Checkmate"; "Blazing Shot"; "Double Check"; "Blazing Shot"; "Checkmate";
       "Drill"; "Double Check"; "Checkmate"; "Heated Split Shot"; "Double Check"; "Heated Slug Shot";
       "Heated Clean Shot"]
      "7.05" None)])].

(** example_rotations/caster/blm_data.py lines 6-86 and example_rotations/caster/blm.py lines 10-24 *)
Definition blm_examples : example_file := mkExampleFile true
  [("BLM", [(90, mkExample 132 3375 1764 1547 545 2469 None "BLM"
      []
      ["Sharpcast"; "Fire III"; "Thunder III"; "Triplecast"; "Fire IV"; "Grade 8 Tincture"; "Fire IV"; "Amplifier";
       "Ley Lines"; "Fire IV"; "Swiftcast"; "Fire IV"; "Triplecast"; "Despair"; "Manafont"; "Fire IV"; "Sharpcast";
       "Despair"; "Blizzard III"; "Xenoglossy"; "Paradox"; "Blizzard IV"; "Thunder III"]
      "6.55" (Some "6.55")); (100, mkExample 146 4882 1572 1882 3321 1047 None "BLM"
      []
      ["Fire III"; "High Thunder"; "Swiftcast"; "Amplifier"; "Fire IV"; "Grade 2 Gemdraught"; "Fire IV";
       "Xenoglossy"; "Triplecast"; "Ley Lines"; "Fire IV"; "Fire IV"; "Despair"; "Manafont"; "Triplecast";
       "Fire IV"; "Fire IV"; "Flare Star"; "Fire IV"; "High Thunder"; "Paradox"; "Fire IV"; "Fire IV"; "Fire IV";
       "Despair"]
      "7.05" None)])].

(** example_rotations/caster/pct_data.py lines 6-116 and example_rotations/caster/pct.py lines 10-24 *)
Definition pct_examples : example_file := mkExampleFile true
  [("PCT", [(90, mkExample 146 4883 2269 1993 3140 420 None "PCT"
      []
      ["Striking Muse"; "Holy in White"; "Grade 2 Gemdraught"; "Pom Muse"; "Wing Motif"; "Starry Muse";
       "Hammer Stamp"; "Subtractive Palette"; "Blizzard in Cyan"; "Stone in Yellow"; "Thunder in Magenta";
       "Comet in Black"; "Winged Muse"; "Mog of the Ages"; "Hammer Brush"; "Polishing Hammer"; "Holy in White"]
      "7.05" None); (100, mkExample 146 4883 2269 1993 3140 420 None "PCT"
      []
      ["Rainbow Drip"; "Striking Muse"; "Holy in White"; "Grade 2 Gemdraught"; "Pom Muse"; "Wing Motif";
       "Starry Muse"; "Hammer Stamp"; "Subtractive Palette"; "Blizzard in Cyan"; "Stone in Yellow";
       "Thunder in Magenta"; "Comet in Black"; "Winged Muse"; "Mog of the Ages"; "Star Prism"; "Hammer Brush";
       "Polishing Hammer"; "Rainbow Drip"; "Holy in White"; "Swiftcast"; "Claw Motif"; "Clawed Muse"]
      "7.05" None)]);
    ("PCT 7.0", [(100, mkExample 132 3379 1871 1438 2514 502 None "PCT"
      []
      ["Rainbow Drip"; "Striking Muse"; "Holy in White"; "Grade 2 Gemdraught"; "Pom Muse"; "Wing Motif";
       "Starry Muse"; "Hammer Stamp"; "Subtractive Palette"; "Blizzard in Cyan"; "Stone in Yellow";
       "Thunder in Magenta"; "Comet in Black"; "Winged Muse"; "Mog of the Ages"; "Star Prism"; "Hammer Brush";
       "Polishing Hammer"; "Rainbow Drip"; "Holy in White"; "Swiftcast"; "Claw Motif"; "Clawed Muse"]
      "7.05" None)])].

(** example_rotations/caster/rdm_data.py lines 6-103 and example_rotations/caster/rdm.py lines 10-24 *)
Definition rdm_examples : example_file := mkExampleFile true
  [("RDM", [(90, mkExample 132 3379 1601 1708 2514 502 None "RDM"
      []
      ["Verthunder III"; "Veraero III"; "Swiftcast"; "Acceleration"; "Verthunder III"; "Grade 8 Tincture";
       "Verthunder III"; "Embolden"; "Manafication"; "Enchanted Riposte"; "Fleche"; "Enchanted Zwerchhau";
       "Contre Sixte"; "Enchanted Redoublement"; "Corps-a-corps"; "Engagement"; "Verholy"; "Corps-a-corps";
       "Engagement"; "Scorch"; "Resolution"; "Verfire"; "Verthunder III"; "Verstone"; "Veraero III"; "Jolt II";
       "Verthunder III"; "Fleche"]
      "6.55" (Some "6.55")); (100, mkExample 146 4883 2108 2125 3061 528 None "RDM"
      []
      ["Veraero III"; "Verthunder III"; "Swiftcast"; "Grade 2 Gemdraught"; "Verthunder III"; "Fleche";
       "Acceleration"; "Verthunder III"; "Embolden"; "Manafication"; "Enchanted Riposte"; "Contre Sixte";
       "Enchanted Zwerchhau"; "Engagement"; "Enchanted Redoublement"; "Corps-a-corps"; "Verholy"; "Vice of Thorns";
       "Scorch"; "Engagement"; "Corps-a-corps"; "Resolution"; "Prefulgence"; "Grand Impact"; "Acceleration";
       "Verfire"; "Grand Impact"; "Verthunder III"; "Fleche"; "Veraero III"; "Verfire"; "Verthunder III";
       "Verstone"; "Veraero III"; "Swiftcast"; "Veraero III"; "Contre Sixte"]
      "7.05" None)])].

(** example_rotations/caster/smn_data.py lines 6-89 and example_rotations/caster/smn.py lines 10-24 *)
Definition smn_examples : example_file := mkExampleFile true
  [("SMN", [(90, mkExample 132 3379 1871 1438 2514 502 None "SMN"
      []
      ["Ruin III"; "Summon Bahamut"; "Searing Light"; "Astral Impulse"; "Grade 8 Tincture"; "Astral Impulse";
       "Astral Impulse"; "Energy Drain"; "Enkindle Bahamut"; "Astral Impulse"; "Deathflare"; "Fester";
       "Astral Impulse"; "Fester"; "Astral Impulse"; "Summon Garuda II"; "Swiftcast"; "Slipstream"; "Emerald Rite";
       "Emerald Rite"; "Emerald Rite"; "Emerald Rite"; "Summon Titan II"]
      "6.55" (Some "6.55")); (100, mkExample 146 4883 2108 2125 3061 528 None "SMN"
      []
      ["Ruin III"; "Summon Solar Bahamut"; "Grade 2 Gemdraught"; "Umbral Impulse"; "Searing Light";
       "Umbral Impulse"; "Umbral Impulse"; "Energy Drain"; "Umbral Impulse"; "Exodus"; "Necrotize";
       "Umbral Impulse"; "Sunflare"; "Necrotize"; "Umbral Impulse"; "Searing Flash"; "Summon Titan II";
       "Topaz Rite"; "Mountain Buster"; "Topaz Rite"; "Mountain Buster"; "Topaz Rite"; "Mountain Buster";
       "Topaz Rite"; "Mountain Buster"; "Summon Garuda II"; "Swiftcast"; "Slipstream"]
      "7.05" None)])].

(** example_rotations/melee/drg_data.py lines 6-92 and example_rotations/melee/drg.py lines 9-23 *)
Definition drg_examples : example_file := mkExampleFile true
  [("DRG", [(90, mkExample 132 3379 1818 1818 2567 400 None "DRG"
      []
      ["True Thrust"; "Grade 8 Tincture"; "Disembowel"; "Lance Charge"; "Dragon Sight"; "Chaotic Spring";
       "Battle Litany"; "Wheeling Thrust"; "Geirskogul"; "Life Surge"; "Fang and Claw"; "High Jump"; "Mirage Dive";
       "Raiden Thrust"; "Dragonfire Dive"; "Vorpal Thrust"; "Spineshatter Dive"; "Life Surge"; "Heavens' Thrust";
       "Fang and Claw"; "Wheeling Thrust"; "Raiden Thrust"; "Wyrmwind Thrust"; "Disembowel"; "Chaotic Spring";
       "Wheeling Thrust"]
      "6.55" (Some "6.55")); (100, mkExample 146 4883 2150 2132 3120 420 None "DRG"
      []
      ["True Thrust"; "Spiral Blow"; "Lance Charge"; "Grade 2 Gemdraught"; "Chaotic Spring"; "Battle Litany";
       "Geirskogul"; "Wheeling Thrust"; "High Jump"; "Life Surge"; "Drakesbane"; "Dragonfire Dive"; "Nastrond";
       "Raiden Thrust"; "Stardiver"; "Lance Barrage"; "Starcross"; "Life Surge"; "Heavens' Thrust"; "Nastrond";
       "Rise of the Dragon"; "Fang and Claw"; "Nastrond"; "Mirage Dive"; "Drakesbane"; "Raiden Thrust";
       "Wyrmwind Thrust"; "Spiral Blow"]
      "7.05" None)])].

(** example_rotations/melee/mnk_data.py lines 6-80 and example_rotations/melee/mnk.py lines 9-23 *)
Definition mnk_examples : example_file := mkExampleFile true
  [("MNK", [(90, mkExample 132 3356 1453 1453 2647 771 None "MNK"
      []
      ["Form Shift"; "Dragon Kick"; "Grade 8 Tincture"; "Twin Snakes"; "Riddle of Fire"; "Demolish";
       "The Forbidden Chakra"; "Bootshine"; "Brotherhood"; "Perfect Balance"; "Dragon Kick"; "Riddle of Wind";
       "Bootshine"; "Dragon Kick"; "Elixir Field"; "Bootshine"; "Perfect Balance"; "Twin Snakes"; "Dragon Kick";
       "Demolish"; "Rising Phoenix"]
      "6.55" (Some "6.55")); (100, mkExample 146 4861 2071 1639 3156 956 None "MNK"
      []
      ["Dragon Kick"; "Perfect Balance"; "Grade 2 Gemdraught"; "Leaping Opo"; "Dragon Kick"; "Brotherhood";
       "Riddle of Fire"; "Leaping Opo"; "The Forbidden Chakra"; "Riddle of Wind"; "Elixir Burst"; "Dragon Kick";
       "Wind's Reply"; "Fire's Reply"; "Leaping Opo"; "Perfect Balance"; "Dragon Kick"; "Leaping Opo";
       "Dragon Kick"; "Elixir Burst"; "Leaping Opo"]
      "7.05" None)])].

(** example_rotations/melee/nin_data.py lines 6-98 and example_rotations/melee/nin.py lines 9-23 *)
Definition nin_examples : example_file := mkExampleFile true
  [("NIN", [(90, mkExample 132 3360 1697 1582 2554 400 None "NIN"
      []
      ["Huton"; "Hide"; "Suiton"; "Kassatsu"; "Spinning Edge"; "Grade 8 Tincture"; "Gust Slash"; "Mug"; "Bunshin";
       "Phantom Kamaitachi"; "Trick Attack"; "Aeolian Edge"; "Dream Within a Dream"; "Ten"; "Jin"; "Hyosho Ranryu";
       "Ten"; "Chi"; "Raiton"; "Ten Chi Jin"; "Fuma Shuriken"; "Raiton"; "Suiton"; "Meisui"; "Forked Raiju";
       "Bhavacakra"; "Forked Raiju"; "Bhavacakra"; "Ten"; "Chi"; "Raiton"; "Forked Raiju"]
      "6.55" (Some "6.55")); (100, mkExample 146 4861 2387 1842 3173 420 None "NIN"
      []
      ["Ten"; "Chi"; "Jin"; "Suiton"; "Kassatsu"; "Spinning Edge"; "Grade 2 Gemdraught"; "Gust Slash"; "Dokumori";
       "Bunshin"; "Phantom Kamaitachi"; "Armor Crush"; "Kunai's Bane"; "Hyosho Ranryu"; "Dream Within a Dream";
       "Raiton"; "Ten Chi Jin"; "Fuma Shuriken"; "Raiton"; "Suiton"; "Meisui"; "Fleeting Raiju"; "Zesho Meppo";
       "Tenri Jindo"; "Fleeting Raiju"; "Bhavacakra"; "Raiton"; "Fleeting Raiju"]
      "7.05" None)])].

(** example_rotations/melee/rpr_data.py lines 6-82 and example_rotations/melee/rpr.py lines 9-23 *)
Definition rpr_examples : example_file := mkExampleFile true
  [("RPR", [(90, mkExample 132 3379 1764 1558 2567 436 None "RPR"
      []
      ["Harpe"; "Shadow of Death"; "Grade 8 Tincture"; "Soul Slice"; "Arcane Circle"; "Gluttony"; "Gibbet";
       "Gallows"; "Plentiful Harvest"; "Enshroud"; "Void Reaping"; "Cross Reaping"; "Lemure's Slice";
       "Void Reaping"; "Cross Reaping"; "Lemure's Slice"; "Communio"; "Soul Slice"; "Unveiled Gibbet"; "Gibbet"]
      "6.55" (Some "6.55")); (100, mkExample 146 4883 2150 2078 3120 474 None "RPR"
      []
      ["Harpe"; "Shadow of Death"; "Grade 2 Gemdraught"; "Soul Slice"; "Arcane Circle"; "Gluttony";
       "Executioner's Gibbet"; "Executioner's Gallows"; "Soul Slice"; "Plentiful Harvest"; "Enshroud";
       "Void Reaping"; "Sacrificium"; "Cross Reaping"; "Lemure's Slice"; "Void Reaping"; "Cross Reaping";
       "Lemure's Slice"; "Communio"; "Perfectio"; "Unveiled Gibbet"; "Gibbet"; "Shadow of Death"; "Slice"]
      "7.05" None)])].

(** example_rotations/melee/sam_data.py lines 6-90 and example_rotations/melee/sam.py lines 9-23 *)
Definition sam_examples : example_file := mkExampleFile true
  [("SAM", [(90, mkExample 132 3367 1736 1494 2587 508 None "SAM"
      []
      ["Meikyo Shisui"; "True North"; "Gekko"; "Grade 8 Tincture"; "Kasha"; "Yukikaze"; "Midare Setsugekka";
       "Hissatsu: Senei"; "Kaeshi: Setsugekka"; "Meikyo Shisui"; "Gekko"; "Hissatsu: Shinten"; "Higanbana";
       "Hissatsu: Shinten"; "Ogi Namikiri"; "Shoha"; "Kaeshi: Namikiri"; "Kasha"; "Hissatsu: Shinten"; "Gekko";
       "Hissatsu: Gyoten"; "Hakaze"; "Hissatsu: Shinten"; "Yukikaze"; "Midare Setsugekka"; "Kaeshi: Setsugekka"]
      "6.55" (Some "6.55")); (100, mkExample 146 4869 2093 1933 3103 693 None "SAM"
      []
      ["Meikyo Shisui"; "True North"; "Gekko"; "Grade 2 Gemdraught"; "Kasha"; "Ikishoten"; "Yukikaze";
       "Tendo Setsugekka"; "Hissatsu: Senei"; "Tendo Kaeshi Setsugekka"; "Meikyo Shisui"; "Gekko"; "Zanshin";
       "Higanbana"; "Ogi Namikiri"; "Shoha"; "Kaeshi: Namikiri"; "Kasha"; "Hissatsu: Shinten"; "Gekko";
       "Hissatsu: Gyoten"; "Gyofu"; "Yukikaze"; "Hissatsu: Shinten"; "Tendo Setsugekka"; "Tendo Kaeshi Setsugekka"]
      "7.05" None)])].

(** example_rotations/melee/vpr_data.py lines 6-163 and example_rotations/melee/vpr.py lines 9-23 *)
Definition vpr_examples : example_file := mkExampleFile true
  [("VPR", [(90, mkExample 146 4861 2387 1842 3173 420 None "VPR"
      []
      ["Slither"; "Steel Fangs"; "Serpent's Ire"; "Swiftskin's Sting"; "Vicewinder"; "Grade 2 Gemdraught";
       "Hunter's Coil"; "Twinfang Bite"; "Twinblood Bite"; "Swiftskin's Coil"; "Twinblood Bite"; "Twinfang Bite";
       "Reawaken"; "First Generation"; "Second Generation"; "Third Generation"; "Fourth Generation";
       "Uncoiled Fury"; "Uncoiled Fury"; "Hindsting Strike"; "Death Rattle"; "Vicewinder"; "Uncoiled Fury";
       "Hunter's Coil"; "Twinfang Bite"; "Twinblood Bite"; "Swiftskin's Coil"; "Twinfang Bite"; "Twinblood Bite"]
      "7.05" None); (100, mkExample 146 4861 2387 1842 3173 420 None "VPR"
      []
      ["Slither"; "Steel Fangs"; "Serpent's Ire"; "Swiftskin's Sting"; "Vicewinder"; "Grade 2 Gemdraught";
       "Hunter's Coil"; "Twinfang Bite"; "Twinblood Bite"; "Swiftskin's Coil"; "Twinblood Bite"; "Twinfang Bite";
       "Reawaken"; "First Generation"; "First Legacy"; "Second Generation"; "Second Legacy"; "Third Generation";
       "Third Legacy"; "Fourth Generation"; "Fourth Legacy"; "Ouroboros"; "Uncoiled Fury"; "Uncoiled Twinfang";
       "Uncoiled Twinblood"; "Uncoiled Fury"; "Uncoiled Twinfang"; "Uncoiled Twinblood"; "Hindsting Strike";
       "Death Rattle"; "Vicewinder"; "Uncoiled Fury"; "Uncoiled Twinfang"; "Uncoiled Twinblood"; "Hunter's Coil";
       "Twinfang Bite"; "Twinblood Bite"; "Swiftskin's Coil"; "Twinfang Bite"; "Twinblood Bite"]
      "7.05" None)]);
    ("VPR 7.0", [(100, mkExample 146 4861 2387 1842 3173 420 None "VPR"
      []
      ["Slither"; "Steel Fangs"; "Serpent's Ire"; "Swiftskin's Sting"; "Vicewinder"; "Grade 2 Gemdraught";
       "Hunter's Coil"; "Twinfang Bite"; "Twinblood Bite"; "Swiftskin's Coil"; "Twinblood Bite"; "Twinfang Bite";
       "Reawaken"; "First Generation"; "First Legacy"; "Second Generation"; "Second Legacy"; "Third Generation";
       "Third Legacy"; "Fourth Generation"; "Fourth Legacy"; "Ouroboros"; "Uncoiled Fury"; "Uncoiled Twinfang";
       "Uncoiled Twinblood"; "Uncoiled Fury"; "Uncoiled Twinfang"; "Uncoiled Twinblood"; "Hindsting Strike";
       "Death Rattle"; "Vicewinder"; "Uncoiled Fury"; "Uncoiled Twinfang"; "Uncoiled Twinblood"; "Hunter's Coil";
       "Twinfang Bite"; "Twinblood Bite"; "Swiftskin's Coil"; "Twinfang Bite"; "Twinblood Bite"]
      "7.05" None)])].

(** get_example_rotations.py lines 8-16 and the add_*_rotations_to_rotation_library.py files, in order *)
Definition example_files : list example_file :=
  [war_examples; pld_examples; gnb_examples; drk_examples; whm_examples; sge_examples; sch_examples; ast_examples;
   brd_examples; dnc_examples; mch_examples; blm_examples; pct_examples; rdm_examples; smn_examples; drg_examples;
   mnk_examples; nin_examples; rpr_examples; sam_examples; vpr_examples].
