(** * Options: keyword arguments of the functions that draw *)
From Coq Require Import List ZArith QArith Bool Arith String.
From Verif Require Import Base Dict Graph GraphNet Colors Drawing.
Import ListNotations.
Open Scope Z_scope.

(** Values of keyword arguments: those the library makes itself, and [KUser],
    any other.  [KRow] is a list of numbers: a colour or a size. *)
Inductive kval : Type :=
| KNone | KBool (b : bool) | KInt (z : Z) | KText (s : string) | KRow (l : list Q)
| KPlaces (p : list (nat * pval)) | KSegments (l : list (pval * pval)) | KColors (o : option (list pval)) | KColumn (l : list comp)
| KUpdate | KFigure | KUser (k : nat).
(** A dictionary of keyword arguments. *)
Definition kwargs : Type := list (string * kval).
Definition kget (d : kwargs) (k : string) : option kval := mget String.eqb d k.
(** [kwargs.get(k, x)] *)
Definition kget_or (d : kwargs) (k : string) (x : kval) : kval := match kget d k with Some y => y | None => x end.

(** [for key, value in kw.items(): if key in d: d[key] = value]
    (graph_wrapper.py:504-510; queue_network.py:562-564, 583-585). *)
Definition replace_known (d kw : kwargs) : kwargs :=
  fold_left (fun d e => if mhas String.eqb d (fst e) then mput String.eqb d (fst e) (snd e) else d) kw d.

(** Column [k] of the array of places, [self.pos[:, k]]. *)
Definition column (k : nat) (l : list pval) : list comp := map (fun p => match p with VNum c => nth k c None | VNone => None end) l.

(** [line_collecton_kwargs] (graph_wrapper.py:468-482). *)
Definition line_defaults (pic : picture) : kwargs :=
  [("segments", KSegments (pi_segments pic)); ("colors", KColors (pi_lines pic)); ("linewidths", KRow [1%Q]); ("antialiaseds", KRow [1%Q]);
   ("linestyle", KText "solid"); ("transOffset", KNone); ("cmap", KText "ocean_r"); ("pickradius", KInt 5); ("zorder", KInt 0);
   ("facecolors", KNone); ("norm", KNone); ("offsets", KNone); ("hatch", KNone)]%string.
(** [scatter_kwargs_] (graph_wrapper.py:483-499). *)
Definition scatter_defaults (pic : picture) : kwargs :=
  [("x", KColumn (column 0 (pi_points pic))); ("y", KColumn (column 1 (pi_points pic))); ("s", KInt 50); ("c", KColors (pi_fills pic));
   ("alpha", KNone); ("norm", KNone); ("vmin", KNone); ("vmax", KNone); ("marker", KText "o"); ("zorder", KInt 2); ("linewidths", KInt 1);
   ("edgecolors", KColors (pi_borders pic)); ("facecolors", KNone); ("antialiaseds", KNone); ("hatch", KNone)]%string.

(** [lines_scatter_args] (graph_wrapper.py:427-512) with its keyword
    arguments; None for a dictionary is the empty one. *)
Definition plot_args (d : dgraph) (layout : list (nat * pval)) (line_kw scatter_kw : kwargs) (pos : option (list (nat * pval))) (s : gprops) : res (kwargs * kwargs * gprops) :=
  let* (pic, s') := lines_scatter_args d layout pos s in
  Ok (replace_known (line_defaults pic) line_kw, replace_known (scatter_defaults pic) scatter_kw, s').

(** [SAVEFIG_KWARGS] (graph_wrapper.py:184-195). *)
Definition savefig_kwargs : list string :=
  ["dpi"; "facecolorw"; "edgecolorw"; "orientationportrait"; "papertype"; "format"; "transparent"; "bbox_inches"; "pad_inches"; "frameon"]%string.

(** What matplotlib is asked for: the size of the figure, the arguments of
    LineCollection and scatter, the background, and the name and options of
    the file; with None the figure is shown. *)
Record drawing : Type := mkDrawing {
  dr_figsize : kval;
  dr_lines : kwargs;
  dr_points : kwargs;
  dr_face : kval;
  dr_file : option (kval * kwargs)
}.
(** [kwargs.get('pos')].  Simplification: positions are a dictionary or None,
    other values raise. *)
Definition pos_arg (kw : kwargs) : res (option (list (nat * pval))) :=
  match kget kw "pos"%string with
  | None | Some KNone => Ok None
  | Some (KPlaces p) => Ok (Some p)
  | Some _ => Err TypeError
  end.
(** [draw_graph] (graph_wrapper.py:356-425); matplotlib is installed. *)
Definition draw_graph (d : dgraph) (layout : list (nat * pval)) (line_kw scatter_kw kw : kwargs) (s : gprops) : res (drawing * gprops) :=
  let* pos := pos_arg kw in
  let* (args, s') := plot_args d layout line_kw scatter_kw pos s in
  Ok (mkDrawing (kget_or kw "figsize"%string (KRow [7; 7]%Q)) (fst args) (snd args) (kget_or kw "bgcolor"%string (KRow [1; 1; 1; 1]%Q))
        match kget kw "fname"%string with
        | Some f => Some (f, filter (fun e => existsb (String.eqb (fst e)) savefig_kwargs) kw)
        | None => None
        end, s').

(** [QueueNetwork.draw] (queue_network.py:667-741) after the colours have been
    brought up to date; [bg] is [colors['bgcolor']]. *)
Definition draw_network (d : dgraph) (layout : list (nat * pval)) (bg : kval) (line_kw scatter_kw kw : kwargs) (s : gprops) : res (drawing * gprops) :=
  draw_graph d layout line_kw scatter_kw (if mhas String.eqb kw "bgcolor" then kw else mput String.eqb kw "bgcolor" bg)%string s.

(** [animation_args] (queue_network.py:549-561) and [save_args] (571-582). *)
Definition animation_defaults : kwargs :=
  [("fargs", KNone); ("event_source", KNone); ("init_func", KNone); ("frames", KNone); ("blit", KBool false); ("interval", KInt 10);
   ("repeat", KNone); ("func", KUpdate); ("repeat_delay", KNone); ("fig", KFigure); ("save_count", KNone)]%string.
Definition save_defaults : kwargs :=
  [("filename", KNone); ("writer", KNone); ("fps", KNone); ("dpi", KNone); ("codec", KNone); ("bitrate", KNone); ("extra_args", KNone);
   ("metadata", KNone); ("extra_anim", KNone); ("savefig_kwargs", KNone)]%string.
(** The arguments of FuncAnimation and of its method save, in [animate]
    (queue_network.py:549-587). *)
Definition animation_calls (kw : kwargs) : kwargs * option kwargs :=
  (replace_known animation_defaults kw,
   if mhas String.eqb kw "filename"%string then Some (replace_known save_defaults kw) else None).
