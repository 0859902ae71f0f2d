(** Generated by tools/cli_table.py from the decorators in /repo/strata/strata.py: the arguments and options of every command as they are declared there, and
    the functions of the library which it calls. *)
From Coq Require Import String ZArith List.
Import ListNotations.
Local Open Scope string_scope.
Local Open Scope list_scope.
Local Open Scope Z_scope.

(** The types and default values which occur; [SFloat n d] is n / d. *)
Inductive stype := TAbsent | TStr | TInt | TFloat | TOptInt | TOptFloat | TFloats | TTexts | TPath | TExisting | TRange (lo : Z) | TChoice (l : list string).
Inductive sval := SAbsent | SNone | SBool (b : bool) | SInt (z : Z) | SFloat (n : Z) (d : positive) | SText (s : string) | STuple (l : list sval).
Record darg := mkDarg { da_name : string; da_type : stype; da_nargs : Z; da_required : bool }.
Record dopt := mkDopt { do_words : list string; do_type : stype; do_nargs : Z; do_default : sval; do_flag : bool }.
(** Words, arguments, options, functions. *)
Definition declared : list (list string * list darg * list dopt * list string) :=
  [(* strata.py, def in line 225 *)
   (["average"],
    [mkDarg "base" TStr (1) false; mkDarg "output" TStr (1) false; mkDarg "group" (TRange 1) (1) false],
    [mkDopt ["--combine"] TOptInt (2) (STuple [SNone; SNone]) false;
     mkDopt ["--supersample"] TOptInt (1) (SNone) false;
     mkDopt ["--recenter"] (TChoice ["none"; "left"; "right"; "com"]) (1) (SText "none") false;
     mkDopt ["--rolling/--norolling"] TAbsent (1) (SBool false) false;
     mkDopt ["--floor"] TFloat (1) (SNone) false;
     mkDopt ["-co"; "--cutoff"] TFloat (1) (SFloat (0) 1) false;
     mkDopt ["-cb"; "--cutoff_bins"] TAbsent (1) (SInt (1)) false;
     mkDopt ["-cr"; "--cutoff_radius"] TAbsent (1) (SFloat (1) 1) false;
     mkDopt ["--xlim"] TOptFloat (2) (STuple [SNone; SNone]) false;
     mkDopt ["--ylim"] TOptFloat (2) (STuple [SNone; SNone]) false;
     mkDopt ["-b"; "--begin"] (TRange 0) (1) (SInt (1)) false;
     mkDopt ["-e"; "--end"] (TRange 0) (1) (SNone) false;
     mkDopt ["--ext"] TAbsent (1) (SText ".dat") false],
    ["average"]);
   (* strata.py, def in line 271 *)
   (["convert"],
    [mkDarg "base" TStr (1) false; mkDarg "output" TStr (1) false],
    [mkDopt ["--ftype"] (TChoice ["gmx"; "simple"; "simple_plain"]) (1) (SText "gmx") false;
     mkDopt ["-b"; "--begin"] (TRange 0) (1) (SInt (1)) false;
     mkDopt ["-e"; "--end"] (TRange 0) (1) (SNone) false;
     mkDopt ["--ext"] TAbsent (1) (SText ".dat") false],
    ["convert"]);
   (* strata.py, def in line 319 *)
   (["spreading"; "collect"],
    [mkDarg "base" TStr (1) false; mkDarg "floor" TFloat (1) false],
    [mkDopt ["-o"; "--output"; "save"] TPath (1) (SText "spread.xvg") false;
     mkDopt ["--nooutput"] TAbsent (1) (SBool false) true;
     mkDopt ["-dt"; "--delta_t"; "dt"] TAbsent (1) (SFloat (1) 1) false;
     mkDopt ["-co"; "--cutoff"] TFloat (1) (SNone) false;
     mkDopt ["-cr"; "--cutoff_radius"] TAbsent (1) (SFloat (1) 1) false;
     mkDopt ["-cb"; "--cutoff_bins"] TAbsent (1) (SInt (1)) false;
     mkDopt ["-t0"; "--time_init"; "t0"] TFloat (1) (SFloat (0) 1) false;
     mkDopt ["-b"; "--begin"] (TRange 0) (1) (SInt (1)) false;
     mkDopt ["-e"; "--end"] (TRange 0) (1) (SNone) false;
     mkDopt ["--ext"] TAbsent (1) (SText ".dat") false;
     mkDopt ["-v"; "--verbose"] TAbsent (1) (SBool false) true],
    ["collect"]);
   (* strata.py, def in line 381 *)
   (["spreading"; "view"],
    [mkDarg "files" TExisting (-1) false],
    [mkDopt ["-t"; "--tau"] TFloat (1) (SFloat (1) 1) false;
     mkDopt ["-r"; "--radius"; "R"] TFloat (1) (SFloat (1) 1) false;
     mkDopt ["-rs"; "--sync_radius"] TFloat (1) (SNone) false;
     mkDopt ["-o"; "--save_fig"] TPath (1) (SNone) false;
     mkDopt ["-x"; "--save_xvg"] TPath (1) (SNone) false;
     mkDopt ["--show/--noshow"] TAbsent (1) (SBool true) false;
     mkDopt ["--loglog"] TAbsent (1) (SAbsent) true;
     mkDopt ["--xlim"] TOptFloat (2) (STuple [SNone; SNone]) false;
     mkDopt ["--ylim"] TOptFloat (2) (STuple [SNone; SNone]) false;
     mkDopt ["--title"] TAbsent (1) (SText "Droplet spreading") false;
     mkDopt ["--xlabel"] TAbsent (1) (SText "Time (ps)") false;
     mkDopt ["--ylabel"] TAbsent (1) (SText "Radius (nm)") false],
    ["view_spreading"]);
   (* strata.py, def in line 423 *)
   (["spreading"; "fit"],
    [mkDarg "files" TExisting (-1) false],
    [mkDopt ["--lims"] TOptFloat (2) (STuple [SNone; SNone]) false;
     mkDopt ["--out_lims"] TOptFloat (2) (STuple [SNone; SNone]) false;
     mkDopt ["-o"; "--save_fig"] TPath (1) (SNone) false;
     mkDopt ["-x"; "--save_xvg"] TPath (1) (SNone) false;
     mkDopt ["--print/--noprint"] TAbsent (1) (SBool true) false;
     mkDopt ["--show/--noshow"] TAbsent (1) (SBool true) false;
     mkDopt ["--loglog"] TAbsent (1) (SAbsent) true;
     mkDopt ["--legend/--nolegend"] TAbsent (1) (SBool true) false;
     mkDopt ["--xlim"] TOptFloat (2) (STuple [SNone; SNone]) false;
     mkDopt ["--ylim"] TOptFloat (2) (STuple [SNone; SNone]) false;
     mkDopt ["--title"] TAbsent (1) (SText "Droplet spreading with fit") false;
     mkDopt ["--xlabel"] TAbsent (1) (SText "Time (ps)") false;
     mkDopt ["--ylabel"] TAbsent (1) (SText "Radius (nm)") false],
    ["fit_spreading_data"]);
   (* strata.py, def in line 476 *)
   (["interface"; "collect"],
    [mkDarg "base" TStr (1) false; mkDarg "output" TStr (1) false],
    [mkDopt ["--recenter"] (TChoice ["off"; "com"; "zero"]) (1) (SText "zero") false;
     mkDopt ["-co"; "--cutoff"] TFloat (1) (SNone) false;
     mkDopt ["-cr"; "--cutoff_radius"] TAbsent (1) (SFloat (1) 1) false;
     mkDopt ["-cb"; "--cutoff_bins"] TAbsent (1) (SInt (1)) false;
     mkDopt ["--ylim"; "ylims"] TOptFloat (2) (STuple [SNone; SNone]) false;
     mkDopt ["-b"; "--begin"] (TRange 0) (1) (SInt (1)) false;
     mkDopt ["-e"; "--end"] (TRange 0) (1) (SNone) false;
     mkDopt ["--ext"] TAbsent (1) (SText ".dat") false],
    ["collect_interfaces"]);
   (* strata.py, def in line 533 *)
   (["interface"; "view"],
    [mkDarg "base" TStr (1) false],
    [mkDopt ["-av"; "--average"] (TRange 1) (1) (SInt (1)) false;
     mkDopt ["-o"; "--save_fig"] TStr (1) (SNone) false;
     mkDopt ["-x"; "--save_xvg"] TPath (1) (SText "") false;
     mkDopt ["--show/--noshow"] TAbsent (1) (SBool true) false;
     mkDopt ["--xlim"] TOptFloat (2) (STuple [SNone; SNone]) false;
     mkDopt ["--ylim"] TOptFloat (2) (STuple [SNone; SNone]) false;
     mkDopt ["--title"] TAbsent (1) (SText "Droplet interface") false;
     mkDopt ["--xlabel"] TAbsent (1) (SText "x (nm)") false;
     mkDopt ["--ylabel"] TAbsent (1) (SText "y (nm)") false;
     mkDopt ["-b"; "--begin"] (TRange 0) (1) (SInt (1)) false;
     mkDopt ["-e"; "--end"] (TRange 0) (1) (SNone) false;
     mkDopt ["--ext"] TAbsent (1) (SText ".xvg") false;
     mkDopt ["--extfig"] TAbsent (1) (SText ".png") false],
    ["view_interfaces"]);
   (* strata.py, def in line 582 *)
   (["interface"; "sample"],
    [mkDarg "base" TStr (1) false; mkDarg "variable" (TChoice ["area"; "length"]) (1) false],
    [mkDopt ["-o"; "--save_fig"] TStr (1) (SNone) false;
     mkDopt ["-x"; "--save_xvg"] TPath (1) (SText "") false;
     mkDopt ["-dt"; "--delta_t"] TAbsent (1) (SFloat (1) 1) false;
     mkDopt ["--show/--noshow"] TAbsent (1) (SBool true) false;
     mkDopt ["--xlim"] TOptFloat (2) (STuple [SNone; SNone]) false;
     mkDopt ["--ylim"] TOptFloat (2) (STuple [SNone; SNone]) false;
     mkDopt ["--title"] TAbsent (1) (SText "Droplet interface") false;
     mkDopt ["--xlabel"] TAbsent (1) (SText "t (ps)") false;
     mkDopt ["--ylabel"] TAbsent (1) (SAbsent) false;
     mkDopt ["-b"; "--begin"] (TRange 0) (1) (SInt (1)) false;
     mkDopt ["-e"; "--end"] (TRange 0) (1) (SNone) false;
     mkDopt ["--ext"] TAbsent (1) (SText ".xvg") false;
     mkDopt ["--extfig"] TAbsent (1) (SText ".png") false],
    ["sample_interfaces"]);
   (* strata.py, def in line 633 *)
   (["interface"; "angle"],
    [mkDarg "base" TStr (1) false],
    [mkDopt ["--fit/--nofit"] TAbsent (1) (SBool false) false;
     mkDopt ["-h"; "--height"] TOptFloat (1) (SNone) false;
     mkDopt ["-dt"; "--delta_t"] TFloat (1) (SFloat (1) 1) false;
     mkDopt ["-o"; "--save_fig"] TStr (1) (SNone) false;
     mkDopt ["-x"; "--save_xvg"] TPath (1) (SNone) false;
     mkDopt ["--show/--noshow"] TAbsent (1) (SBool false) false;
     mkDopt ["--xlim"] TOptFloat (2) (STuple [SNone; SNone]) false;
     mkDopt ["--ylim"] TOptFloat (2) (STuple [SNone; SNone]) false;
     mkDopt ["--title"] TAbsent (1) (SText "Contact angles") false;
     mkDopt ["--xlabel"] TAbsent (1) (SText "t (ps)") false;
     mkDopt ["--ylabel"] TAbsent (1) (SText "angle (deg.)") false;
     mkDopt ["-b"; "--begin"] (TRange 0) (1) (SInt (1)) false;
     mkDopt ["-e"; "--end"] (TRange 0) (1) (SNone) false;
     mkDopt ["--ext"] TAbsent (1) (SText ".xvg") false],
    ["interface_contact_angle"]);
   (* strata.py, def in line 697 *)
   (["contact_line"; "collect"],
    [mkDarg "base" TStr (1) false; mkDarg "output" TStr (1) false],
    [mkDopt ["-av"; "--average"] (TRange 1) (1) (SInt (1)) false;
     mkDopt ["--rolling/--norolling"] TAbsent (1) (SBool false) false;
     mkDopt ["--recenter/--norecenter"] TAbsent (1) (SBool true) false;
     mkDopt ["--fuse/--nofuse"] TAbsent (1) (SBool false) false;
     mkDopt ["--floor"] TFloat (1) (SNone) false;
     mkDopt ["-ea"; "--extract_area"] TFloat (2) (STuple [SFloat (1) 1; SFloat (1) 1]) false;
     mkDopt ["-eh"; "--extract_height"] TFloat (1) (SFloat (0) 1) false;
     mkDopt ["-co"; "--cutoff"] TFloat (1) (SNone) false;
     mkDopt ["-cr"; "--cutoff_radius"] TAbsent (1) (SFloat (1) 1) false;
     mkDopt ["-cb"; "--cutoff_bins"] TAbsent (1) (SInt (1)) false;
     mkDopt ["-b"; "--begin"] (TRange 0) (1) (SInt (1)) false;
     mkDopt ["-e"; "--end"] (TRange 0) (1) (SNone) false;
     mkDopt ["--ext"] TAbsent (1) (SText ".dat") false],
    ["extract_contact_line_bins"]);
   (* strata.py, def in line 763 *)
   (["contact_line"; "sample"],
    [mkDarg "base" TStr (1) false; mkDarg "labels" TStr (-1) true],
    [mkDopt ["-av"; "--average"] (TRange 1) (1) (SInt (1)) false;
     mkDopt ["--rolling/--norolling"] TAbsent (1) (SBool false) false;
     mkDopt ["--recenter/--norecenter"] TAbsent (1) (SBool true) false;
     mkDopt ["--floor"] TFloat (1) (SNone) false;
     mkDopt ["-ea"; "--extract_area"] TFloat (2) (STuple [SFloat (0) 1; SFloat (0) 1]) false;
     mkDopt ["-eh"; "--extract_height"] TFloat (1) (SFloat (0) 1) false;
     mkDopt ["-dt"; "--delta_t"; "dt"] TAbsent (1) (SFloat (1) 1) false;
     mkDopt ["--process"] (TChoice ["mean"; "sum"]) (1) (SText "mean") false;
     mkDopt ["-co"; "--cutoff"] TFloat (1) (SNone) false;
     mkDopt ["-cr"; "--cutoff_radius"] TAbsent (1) (SFloat (1) 1) false;
     mkDopt ["-cb"; "--cutoff_bins"] TAbsent (1) (SInt (1)) false;
     mkDopt ["--save"] TStr (1) (SNone) false;
     mkDopt ["-b"; "--begin"] (TRange 0) (1) (SInt (1)) false;
     mkDopt ["-e"; "--end"] (TRange 0) (1) (SNone) false;
     mkDopt ["--ext"] TAbsent (1) (SText ".dat") false],
    ["sample_contact_line_edges"]);
   (* strata.py, def in line 843 *)
   (["view"; "contour"],
    [mkDarg "files" TExisting (-1) false],
    [mkDopt ["-o"; "--save_fig"] TPath (1) (SNone) false;
     mkDopt ["-l"; "--label"] (TChoice ["M"; "N"; "T"; "U"; "V"; "flow"]) (1) (SText "M") false;
     mkDopt ["-n"; "--num_contours"] TInt (1) (SInt (10)) false;
     mkDopt ["-lv"; "--levels"; "contour_levels"] TFloats (1) (SNone) false;
     mkDopt ["-c"; "--colours"; "contour_colours"] TTexts (1) (SNone) false;
     mkDopt ["--filled"] TAbsent (1) (SBool false) true;
     mkDopt ["--vlim"] TOptFloat (2) (STuple [SNone; SNone]) false;
     mkDopt ["--colourbar/--nocolourbar"; "colorbar"] TAbsent (1) (SBool false) false;
     mkDopt ["--cbarlabel"] TAbsent (1) (SNone) false;
     mkDopt ["--cbarticks"] TFloats (1) (SNone) false;
     mkDopt ["--cbarticklabels"] TTexts (1) (SNone) false;
     mkDopt ["-cmap"; "--colourmap"; "colormap"] TStr (1) (SText "viridis") false;
     mkDopt ["--show/--noshow"] TAbsent (1) (SBool true) false;
     mkDopt ["--transparent/--notransparent"] TAbsent (1) (SBool false) false;
     mkDopt ["--noaxis"] TAbsent (1) (SBool false) false;
     mkDopt ["--dims"] TOptFloat (2) (SNone) false;
     mkDopt ["--xlim"] TOptFloat (2) (STuple [SNone; SNone]) false;
     mkDopt ["--ylim"] TOptFloat (2) (STuple [SNone; SNone]) false;
     mkDopt ["--title"] TAbsent (1) (SText "Droplet contours") false;
     mkDopt ["--xlabel"] TAbsent (1) (SText "x (nm)") false;
     mkDopt ["--ylabel"] TAbsent (1) (SText "y (nm)") false],
    ["view_flowmap_2d"]);
   (* strata.py, def in line 904 *)
   (["view"; "height"],
    [mkDarg "files" TExisting (-1) false],
    [mkDopt ["-o"; "--save_fig"] TPath (1) (SNone) false;
     mkDopt ["-l"; "--label"] (TChoice ["M"; "N"; "T"; "U"; "V"; "flow"; "visc_diss"; "evaporation"]) (1) (SText "M") false;
     mkDopt ["--clim"] TOptFloat (2) (STuple [SNone; SNone]) false;
     mkDopt ["--vlim"] TOptFloat (2) (STuple [SNone; SNone]) false;
     mkDopt ["-cl"; "--cutoff_label"] (TChoice ["M"; "N"; "T"; "U"; "V"; "None"; "flow"; "visc"]) (1) (SNone) false;
     mkDopt ["-co"; "--cutoff"] TFloat (1) (SNone) false;
     mkDopt ["--colourbar/--nocolourbar"; "colorbar"] TAbsent (1) (SBool true) false;
     mkDopt ["-cmap"; "--colourmap"; "colormap"] TStr (1) (SText "viridis") false;
     mkDopt ["--cbarlabel"] TAbsent (1) (SNone) false;
     mkDopt ["--cbarticks"] TFloats (1) (SNone) false;
     mkDopt ["--cbarticklabels"] TTexts (1) (SNone) false;
     mkDopt ["--transparent/--notransparent"] TAbsent (1) (SBool false) false;
     mkDopt ["--show/--noshow"] TAbsent (1) (SBool true) false;
     mkDopt ["--noaxis"] TAbsent (1) (SBool false) false;
     mkDopt ["--dpi"] TInt (1) (SInt (150)) false;
     mkDopt ["--dims"] TOptFloat (2) (SNone) false;
     mkDopt ["--xlim"] TOptFloat (2) (STuple [SNone; SNone]) false;
     mkDopt ["--ylim"] TOptFloat (2) (STuple [SNone; SNone]) false;
     mkDopt ["--drawaxes/--nodrawaxes"; "drawaxes"] TAbsent (1) (SBool true) false;
     mkDopt ["--title"] TAbsent (1) (SText "Droplet height map") false;
     mkDopt ["--xlabel"] TAbsent (1) (SText "x (nm)") false;
     mkDopt ["--ylabel"] TAbsent (1) (SText "y (nm)") false],
    ["view_flowmap_2d"]);
   (* strata.py, def in line 967 *)
   (["view"; "flow"],
    [mkDarg "files" TExisting (-1) false],
    [mkDopt ["-o"; "--save_fig"] TPath (1) (SNone) false;
     mkDopt ["-co"; "--cutoff"] TFloat (1) (SNone) false;
     mkDopt ["-cl"; "--colour_label"; "colour"] (TChoice ["M"; "N"; "T"; "U"; "V"; "None"; "flow"; "visc"; "radial"; "evaporation"]) (1) (SText "T") false;
     mkDopt ["--scale"] TAbsent (1) (SFloat (1) 1) false;
     mkDopt ["--width"] TAbsent (1) (SFloat (15) 10000) false;
     mkDopt ["--pivot"] (TChoice ["tail"; "middle"; "tip"]) (1) (SText "middle") false;
     mkDopt ["--streamlines/--nostreamlines"] TAbsent (1) (SBool false) false;
     mkDopt ["--vlim"] TOptFloat (2) (STuple [SNone; SNone]) false;
     mkDopt ["--colourbar/--nocolourbar"; "colorbar"] TAbsent (1) (SBool false) false;
     mkDopt ["--cbarlabel"] TAbsent (1) (SNone) false;
     mkDopt ["--cbarticks"] TFloats (1) (SNone) false;
     mkDopt ["--cbarticklabels"] TTexts (1) (SNone) false;
     mkDopt ["-cmap"; "--colourmap"; "colormap"] TStr (1) (SText "viridis") false;
     mkDopt ["--show/--noshow"] TAbsent (1) (SBool true) false;
     mkDopt ["--transparent/--notransparent"] TAbsent (1) (SBool false) false;
     mkDopt ["--noaxis"] TAbsent (1) (SBool false) false;
     mkDopt ["--dpi"] TInt (1) (SInt (150)) false;
     mkDopt ["--dims"] TOptFloat (2) (SNone) false;
     mkDopt ["--xlim"] TOptFloat (2) (STuple [SNone; SNone]) false;
     mkDopt ["--ylim"] TOptFloat (2) (STuple [SNone; SNone]) false;
     mkDopt ["--title"] TAbsent (1) (SText "Droplet height map") false;
     mkDopt ["--xlabel"] TAbsent (1) (SText "x (nm)") false;
     mkDopt ["--ylabel"] TAbsent (1) (SText "y (nm)") false],
    ["view_flowfields"]);
   (* strata.py, def in line 1009 *)
   (["sample"],
    [mkDarg "base" TStr (1) false; mkDarg "labels" TStr (-1) true],
    [mkDopt ["-o"; "--output"] TPath (1) (SText "sample.xvg") false;
     mkDopt ["-dt"; "--delta_t"; "dt"] TAbsent (1) (SFloat (1) 1) false;
     mkDopt ["--process"] (TChoice ["mean"; "sum"]) (1) (SText "mean") false;
     mkDopt ["-co"; "--cutoff"] TFloat (1) (SNone) false;
     mkDopt ["-cl"; "--cutoff_label"] TStr (1) (SNone) false;
     mkDopt ["-fl"; "--floor"; "slip_floor"] TFloat (1) (SFloat (0) 1) false;
     mkDopt ["--show/--noshow"; "verbose"] TAbsent (1) (SBool true) false;
     mkDopt ["--xlim"] TOptFloat (2) (STuple [SNone; SNone]) false;
     mkDopt ["--ylim"] TOptFloat (2) (STuple [SNone; SNone]) false;
     mkDopt ["-b"; "--begin"] (TRange 0) (1) (SInt (1)) false;
     mkDopt ["-e"; "--end"] (TRange 0) (1) (SNone) false;
     mkDopt ["--ext"] TAbsent (1) (SText ".dat") false],
    ["sample_average_files"])].
