(** The fixed texts of the commands.
    - /repo/quantas/citations.py (references)
    - /repo/quantas/cmdline/utils/messages.py:22-74 (title, banners)
    - /repo/quantas/__init__.py:11-18 (version, authors)
    Texts are UTF-8 bytes. *)
From Coq Require Import String List.
From Verif Require Import DecimalModel FormatModel FormatProofs CliModel.
Import ListNotations.
Open Scope string_scope.

Definition nl : string := String newline "".
(** "{:_^80}".format("") *)
Definition underscores : string := "________________________________________________________________________________".
(** citations.py:7-17 *)
Definition biblio_header : string := underscores +++ nl +++
"
The methods employed for this Quantas run are described in the following list.
Please, make sure to provide adequate citation of these references if you are
going to publish the results obtained by Quantas.
Quantas is an academic, open-source software, and, to aid its development,
scientific credit in the community is of utmost importance.
Your help would be really appreciated, and we thank you for it!
".
(** citations.py:20-22 *)
Definition biblio_footer : string := underscores +++ nl.
(** citations.py:25-35 *)
Definition quantas_citation : string :=
"
For the base use of Quantas, please cite:

  Gianfranco Ulian and Giovanni Valdre'
  'QUANTAS, a Python software for the analysis of solids from ab initio
  quantum mechanical simulations and experimental data'
  Journal of Applied Crystallography 55, 386-396 (2022)
  http://dx.doi.org/10.1107/S1600576722000085
".
(** citations.py:38-48 *)
Definition qha_citation : string :=
"
For quasi-harmonic approximation calculations used in this run, please cite:

  Gianfranco Ulian and Giovanni Valdre'
  'Equation of state of hexagonal hydroxylapatite (P63) as obtained from
  density functional theory simulations.'
  International Journal of Quantum Chemistry, 15, e25553 (2018)
  https://doi.org/10.1002/qua.25553
".
(** citations.py:51-61 *)
Definition eos_citation : string :=
"
For equation of state fitting used in this run, please cite:

  Gianfranco Ulian, Sergio Tosoni and Giovanni Valdrè
  'The compressional behaviour and the mechanical properties of talc
  [Mg3Si4O10(OH)2]: a density functional theory investigation.'
  Physics and Chemistry of Minerals 41, 639-650 (2014)
  https://doi.org/10.1007/s00269-014-0677-x
".
(** citations.py:64-81 *)
Definition soec_citation : string :=
"
For the analysis of the second order elastic constants used in this run,
please cite:

  Gianfranco Ulian, Daniele Moro and Giovanni Valdre'
  'First principle investigation of the mechanical properties of natural
  mineral layered nanocomposite: clinochlore as a model system.'
  Composite Structures, 202, 551-558 (2018).
  https://doi.org/10.1016/j.compstruct.2018.02.089

  Romain Gaillac, Pluton Pullumbi and François-Xavier Coudert
  'ELATE: an open-source online application for analysis and visualization of
  elastic tensors.'
  Journal of Physics: Condensed Matter 28, 275201 (2016)
  https://doi.org/10.1088/0953-8984/28/27/275201
".
(** citations.py:84-106 *)
Definition christoffel_citation : string :=
"
For the analysis of the wave velocities via solving the Christoffel equation,
please cite:

  Gianfranco Ulian, Daniele Moro and Giovanni Valdre'
  'First principle investigation of the mechanical properties of natural
  mineral layered nanocomposite: clinochlore as a model system.'
  Composite Structures, 202, 551-558 (2018).
  https://doi.org/10.1016/j.compstruct.2018.02.089

  Jan W. Jaeken, Stefaan Cottenier
  'Solving the Christoffel equation: Phase and group velocities.'
  Computer Physics Communications, 207, 445-51 (2016)
  https://doi.org/10.1016/j.cpc.2016.06.014

  Romain Gaillac, Pluton Pullumbi and François-Xavier Coudert
  'ELATE: an open-source online application for analysis and visualization of
  elastic tensors.'
  Journal of Physics: Condensed Matter 28, 275201 (2016)
  https://doi.org/10.1088/0953-8984/28/27/275201
".
(** messages.py:22-35 with __init__.py *)
Definition quantas_title : string :=
"
________                       __                 
\_____  \  __ _______    _____/  |______    ______
 /  / \  \|  |  \__  \  /    \   __\__  \  /  ___/
/   \_/.  \  |  // __ \|   |  \  |  / __ \_\___ \ 
\_____\ \_/____/(____  /___|  /__| (____  /____  >
       \__>          \/     \/          \/     \/ "
 +++ nl +++ "                                            v" +++ "0.9.1" +++ nl +++ "Authors: Gianfranco Ulian and Giovanni Valdre'" +++ nl
 +++ "Copyright (c) Gianfranco Ulian and Giovanni Valdre'." +++ nl.
(** messages.py:38-48 *)
Definition quantas_error : string :=
"
_______________________________ ________ __________._.
\_   _____/\______   \______   \\_____  \\______   \ |
 |    __)_  |       _/|       _/ /   |   \|       _/ |
 |        \ |    |   \|    |   \/    |    \    |   \\|
/_______  / |____|_  /|____|_  /\_______  /____|_  /__
        \/         \/        \/         \/       \/ \/"
 +++ nl.
(** messages.py:64-74 *)
Definition quantas_finish : string :=
"
___________.__       .__       .__     
\_   _____/|__| ____ |__| _____|  |__  
 |    __)  |  |/    \|  |/  ___/  |  \ 
 |     \   |  |   |  \  |\___ \|   Y  \
 \___  /   |__|___|  /__/____  >___|  /
     \/            \/        \/     \/"
 +++ nl +++ "Thank you for using this software!" +++ nl.

(** What each command prints around its report.
    cmd_ha.py:124-129 and cmd_qha.py:178-183 (the same references), cmd_soec.py:116-121,
    cmd_seismic.py:148-153, cmd_eosfit.py:86-91 *)
Definition texts_with (reference : string) : texts :=
  {| title := quantas_title; error_banner := quantas_error; bib_header := biblio_header; bib_footer := biblio_footer;
     own_citation := quantas_citation; citation := reference; finish := quantas_finish |}.
Definition ha_texts : texts := texts_with qha_citation.
Definition qha_texts : texts := texts_with qha_citation.
Definition soec_texts : texts := texts_with soec_citation.
Definition seismic_texts : texts := texts_with christoffel_citation.
Definition eosfit_texts : texts := texts_with eos_citation.
