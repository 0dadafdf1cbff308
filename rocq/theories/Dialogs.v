(** * Questions to the user: the prompts of the keyboard (parameters.py, database.py, network.py), the dialogs and the
    menus of the window (gui.py)

    What the user answers is a list, used from its head; a question that has not been answered yet is the exception
    [InputPrompt] for the keyboard, and an open dialog ([ended = None]) for the window. *)
From Coq Require Import String.
From Verif Require Import Py StrTools Json Params.
Local Open Scope N_scope.

(** a number kept as the text of its [repr] is negative, zero included in [-0.0] (model plumbing) *)
Definition minus (t : str) : bool := match t with c :: _ => c =? 45 | [] => false end.
(** Python [v <= 0], database.py:62, network.py:181 *)
Definition le_zero (v : jval) : bool :=
  match v with JInt z => (z <=? 0)%Z | JFlt t => zero_text t || minus t | _ => false end.
(** Python [v > 0], gui.py:413, 423, 458, 467; an object that is no number raises, which is caught *)
Definition gt_zero (v : jval) : bool :=
  match v with JInt z => (0 <? z)%Z | JFlt t => negb (zero_text t || minus t || seqb t (u "nan")) | _ => false end.

(** Python [x.split()]: [cur] is the word being read, reversed *)
Fixpoint words_go (cur x : str) : list str :=
  match x with
  | [] => match cur with [] => [] | _ => [rev cur] end
  | c :: r => if cmem c wspace then match cur with [] => words_go [] r | _ => rev cur :: words_go [] r end
              else words_go (c :: cur) r
  end.
(** Python [x.split()], gui.py:410, 417, 418, 455, 462, 463 *)
Definition words (x : str) : list str := words_go [] x.

Section Ask.
Variable mc : machine.
Variable float_of : str -> option str.          (* Python's [float(x)] of a text: its repr, or ValueError *)
Local Open Scope p_scope.

(** ** The keyboard *)
(** database.py:55-67 [valid_fvf] of a text, network.py:173-185 the same *)
Definition valid_fvf (x : str) : option str :=
  match float_of x with Some t => if le_zero (JFlt t) then None else Some t | None => None end.
(** database.py:68-78: [set_fvf()]; the answers that are left *)
Fixpoint prompt_fvf (answers : list str) : P (list str) :=
  match answers with
  | [] => praise InputPrompt
  | a :: r => match valid_fvf a with None => prompt_fvf r | Some t => set_fvf float_of (FvFlt t) ;;; pret r end
  end.
(** network.py:192-197 *)
Fixpoint network_prompt (answers : list str) : P (jval * list str) :=
  match answers with
  | [] => praise InputPrompt
  | a :: r => match valid_fvf a with
              | None => network_prompt r
              | Some t => pmod (net_set_fvf float_of (FvFlt t)) ;;; pret (JFlt t, r)
              end
  end.
(** network.py:172-198 [get_fvf]; [gui]: the window is open *)
Definition network_get_fvf (gui : bool) (answers : list str) : P (jval * list str) :=
  p <- pget ;;
  match p_net_fvf p with
  | JNull => if gui then praise NoFVFError else network_prompt answers
  | v => pret (v, answers)
  end.
(** parameters.py:349-379 [set_density(None, units)] *)
Fixpoint prompt_density (conv : jval -> str -> res (option jval)) (units : str) (answers : list str) : P (list str) :=
  match answers with
  | [] => praise InputPrompt
  | a :: r =>
      if cmem 44 a && (length (csplit 44 a) =? 2)%nat then
        match csplit 44 (strip_chars (u "()") a) with
        | [d; x] => match float_of d with
                    | Some t => set_density mc conv (DNumber (JFlt t)) (strip_chars (u " ()") x) ;;; pret r
                    | None => praise ValueError
                    end
        | _ => praise ValueError
        end
      else if negb (cmem 44 a) then
        match float_of a with
        | Some t => set_density mc conv (DNumber (JFlt t)) units ;;; pret r
        | None => prompt_density conv units r
        end
      else prompt_density conv units r
  end.
(** parameters.py:383-391 [_get_density], the loop *)
Fixpoint ask_density (answers : list str) : P (jval * list str) :=
  match answers with
  | [] => praise InputPrompt
  | a :: r => match float_of a with
              | Some t => pmod (set_key KDensity (JFlt t)) ;;; pret (JFlt t, r)
              | None => ask_density r
              end
  end.
(** parameters.py:382-391 [_get_density] *)
Definition needed_density (answers : list str) : P (jval * list str) :=
  p <- pget ;; match p_set p KDensity with JNull => ask_density answers | v => pret (v, answers) end.

(** ** The dialogs of the window *)
(** stringthings.get_number, str(number), Python's [==] on numbers *)
Context (gn : str -> res jval) (show : jval -> str) (same : jval -> jval -> bool).
(** what [convert(number, unit, …)] gives when [units_network.fvf] is the first argument; the other settings do not change
    while a dialog is open, and a conversion changes the memory only (C20) *)
Context (conv : jval -> jval -> str -> res (option jval)).
(** model plumbing (gui.py:397-482): the errors that were displayed, and the end: the last message, an exception, or not yet *)
Record dialog := Dialog { shown : list str; ended : option (res str) }.
(** gui.py:437 and 476: [user_input == fvf]; [None] and the empty text are no numbers *)
Definition equals_input (user_input value : jval) : bool :=
  match user_input with JNull | JStr _ => false | v => same v value end.
(** gui.py:440 and 479: [str(user_input)] *)
Definition text_input (user_input : jval) : str := match user_input with JNull => u "None" | JStr x => x | v => show v end.
(** gui.py:437-440 and 476-479; the local [unit] may not be bound (UnboundLocalError is a NameError) *)
Definition last_message (name unit_name : str) (user_input : jval) (unit : option str) (value : jval) : res str :=
  if equals_input user_input value then Ok (name ++ u " set as " ++ show value ++ u " " ++ unit_name ++ u ".")
  else match unit with
       | Some x => Ok (name ++ u " " ++ text_input user_input ++ u " " ++ x ++ u " converted to " ++ show value ++ u " " ++ unit_name)
       | None => Err NameError
       end.
(** gui.py:474-482; [str(False)] is shown by [show] *)
Definition end_density (user_input : jval) (unit : option str) (errors : list str) (density : jval) : P dialog :=
  pmod (set_key KDensity density) ;;; save_params mc ;;;
  pret (Dialog errors (Some (last_message (u "density") (u "g/cm³") user_input unit density))).
(** gui.py:448-473: the loop; [unit] is the local variable *)
Fixpoint loop_density (unit : option str) (errors : list str) (answers : list (option str)) : P dialog :=
  match answers with
  | [] => pret (Dialog errors None)
  | None :: _ => end_density JNull unit errors (JBool false)
  | Some [] :: _ => end_density (JStr []) unit errors (JBool false)
  | Some x :: r =>
      match words x with
      | [_] => match gn x with
               | Ok v => if gt_zero v then end_density v unit errors v else loop_density unit errors r
               | Err _ => loop_density unit errors r
               end
      | [n; y] => match gn n with
                  | Ok v => if gt_zero v then
                              p <- pget ;;
                              match conv (p_net_fvf p) v y with
                              | Ok (Some d) => end_density v (Some y) errors d
                              | Err NoConversionFoundError => loop_density (Some y) (errors ++ [u "density units " ++ y ++ u " are not valid."]) r
                              | Ok None | Err _ => loop_density (Some y) errors r
                              end
                            else loop_density (Some y) errors r
                  | Err _ => loop_density (Some y) errors r
                  end
      | _ => loop_density unit errors r
      end
  end.
(** gui.py:443-482: the menu entry "Set density" *)
Definition density_dialog (answers : list (option str)) : P dialog := loop_density None [] answers.

(** the argument of [set_fvf] that a value is (model plumbing) *)
Definition farg_of (v : jval) : farg :=
  match v with JNull => FvNone | JStr x => FvStr x | JInt z => FvInt z | JFlt t => FvFlt t | v => FvOther v end.
(** gui.py:434-442 *)
Definition end_fvf (user_input : jval) (unit : option str) (errors : list str) (fvf : jval) : P dialog :=
  pmod (net_set_fvf float_of (farg_of fvf)) ;;; pmod (set_key KFvf fvf) ;;; save_params mc ;;;
  pret (Dialog errors (Some (last_message (u "FVF") (u "vol/vol") user_input unit fvf))).
(** gui.py:427-429; the braces of line 427 are in a plain text *)
Definition fvf_error : str := u "FVF units {unit} are not valid.".
(** gui.py:405-433: the loop; [prev] is the setting before *)
Fixpoint loop_fvf (prev : jval) (unit : option str) (errors : list str) (answers : list (option str)) : P dialog :=
  match answers with
  | [] => pret (Dialog errors None)
  | None :: _ => end_fvf JNull unit errors (JBool false)
  | Some [] :: _ => end_fvf (JStr []) unit errors (JBool false)
  | Some x :: r =>
      match words x with
      | [_] => match gn x with
               | Ok v => if gt_zero v then end_fvf v unit errors v else loop_fvf prev unit errors r
               | Err _ => loop_fvf prev unit errors r
               end
      | [n; y] =>
          let y := if seqb (lower y) (u "vol/vol") then u "sm3/sm3" else y in
          match gn n with
          | Ok v => if gt_zero v then
                      pmod (net_set_fvf float_of (FvInt 1)) ;;; pmod (set_key KFvf (JInt 1)) ;;;
                      p <- pget ;;
                      match conv (p_net_fvf p) v y with
                      | Ok (Some d) => end_fvf v (Some y) errors d
                      | Err NoConversionFoundError =>
                          pmod (net_set_fvf float_of (farg_of prev)) ;;; pmod (set_key KFvf prev) ;;;
                          loop_fvf prev (Some y) (errors ++ [fvf_error]) r
                      | Ok None | Err _ => loop_fvf prev (Some y) errors r
                      end
                    else loop_fvf prev (Some y) errors r
          | Err _ => loop_fvf prev (Some y) errors r
          end
      | _ => loop_fvf prev unit errors r
      end
  end.
(** gui.py:397-442: the menu entry "Set FVF" *)
Definition fvf_dialog (answers : list (option str)) : P dialog := p <- pget ;; loop_fvf (p_set p KFvf) None [] answers.
End Ask.

(** ** The menus *)
(** the marks of the menus: gui.py:545-563; [k_again]: "repeat search" of the form *)
Record marks := Marks { k_bfs : bool; k_lean : bool; k_dfs : bool; k_hybrid : bool;
  k_threads : bool; k_processes : bool; k_off : bool; k_auto : bool;
  k_print : bool; k_verbose : bool; k_cache : bool; k_again : bool }.
Section Menus.
Variable mc : machine.
Local Open Scope p_scope.
(** gui.py:545-563; the box "repeat search" is empty (gui.py:72-76); line 612: [unyts_parameters_] has no attribute
    [multiprocessing], which is only looked at when there are no threads *)
Definition start_menus : P marks :=
  p <- pget ;;
  if p_thread p then
    let algorithm x := is_str (p_set p KAlgo) x in
    let par := truth (p_set p KParallel) in
    pret (Marks (algorithm (u "BFS")) (algorithm (u "lean_BFS")) (algorithm (u "DFS")) (algorithm (u "hybrid_BFS"))
            (par && p_thread p && negb (p_multi p)) (par && p_multi p) (negb par) par
            (truth (p_set p KPrint)) (truth (p_set p KVerbose)) (truth (p_set p KCache)) false)
  else praise AttributeError.
(** the entries of the menus with a mark (gui.py:595-597, 602-605, 614-618); the entry "multiprocessing" is not there, and
    "Rebuild on next start" has a mark of its own, not modelled *)
Inductive entry := ABfs | ALean | ADfs | AHybrid | PThreads | POff | PAuto | SPath | SVerbose | SCache.
(** model plumbing: the marks of the algorithms *)
Definition mark_algorithm (k : marks) (b l d h : bool) (again : bool) : marks :=
  Marks b l d h (k_threads k) (k_processes k) (k_off k) (k_auto k) (k_print k) (k_verbose k) (k_cache k) again.
(** model plumbing: the marks of the parallel menu *)
Definition mark_parallel (k : marks) (t m o a : bool) : marks :=
  Marks (k_bfs k) (k_lean k) (k_dfs k) (k_hybrid k) t m o a (k_print k) (k_verbose k) (k_cache k) (k_again k).
(** model plumbing: the marks of the switches *)
Definition mark_switch (k : marks) (p v c : bool) : marks :=
  Marks (k_bfs k) (k_lean k) (k_dfs k) (k_hybrid k) (k_threads k) (k_processes k) (k_off k) (k_auto k) p v c (k_again k).
(** tkinter, for the check buttons of gui.py:554-577: a check button turns its own mark before its command runs *)
Definition turn (e : entry) (k : marks) : marks :=
  match e with
  | ABfs => mark_algorithm k (negb (k_bfs k)) (k_lean k) (k_dfs k) (k_hybrid k) (k_again k)
  | ALean => mark_algorithm k (k_bfs k) (negb (k_lean k)) (k_dfs k) (k_hybrid k) (k_again k)
  | ADfs => mark_algorithm k (k_bfs k) (k_lean k) (negb (k_dfs k)) (k_hybrid k) (k_again k)
  | AHybrid => mark_algorithm k (k_bfs k) (k_lean k) (k_dfs k) (negb (k_hybrid k)) (k_again k)
  | PThreads => mark_parallel k (negb (k_threads k)) (k_processes k) (k_off k) (k_auto k)
  | POff => mark_parallel k (k_threads k) (k_processes k) (negb (k_off k)) (k_auto k)
  | PAuto => mark_parallel k (k_threads k) (k_processes k) (k_off k) (negb (k_auto k))
  | SPath => mark_switch k (negb (k_print k)) (k_verbose k) (k_cache k)
  | SVerbose => mark_switch k (k_print k) (negb (k_verbose k)) (k_cache k)
  | SCache => mark_switch k (k_print k) (k_verbose k) (negb (k_cache k))
  end.
(** gui.py:343-347, 350-354 and alike: the four functions but their first two lines *)
Definition choose (x : str) (b l d h : bool) (k : marks) : P marks :=
  method_set_algorithm mc (Some x) ;;; pret (mark_algorithm k b l d h (k_again k)).
(** gui.py:341-342, 348-349 and alike: another algorithm ticks "repeat search" *)
Definition select (e : entry) (k : marks) (p : params) : marks :=
  let other x := mark_algorithm k (k_bfs k) (k_lean k) (k_dfs k) (k_hybrid k) (k_again k || negb (is_str (p_set p KAlgo) x)) in
  match e with ABfs => other (u "BFS") | ALean => other (u "lean_BFS") | ADfs => other (u "DFS") | AHybrid => other (u "hybrid_BFS") | _ => k end.
(** gui.py:340-395, 595-597 (with 333-339 for the path, whose display is in [Gui.menu_print_path]): the command *)
Definition command (e : entry) (k : marks) : P marks :=
  match e with
  | ABfs => choose (u "BFS") true false false false k
  | ALean => choose (u "lean_BFS") false true false false k
  | ADfs => choose (u "DFS") false false true false k
  | AHybrid => choose (u "hybrid_BFS") false false false true k
  | PThreads => set_parallel mc (ParStr (u "t")) ;;; pret (mark_parallel k true false false false)
  | POff => set_parallel mc (ParBool false) ;;; pret (mark_parallel k false false true false)
  | PAuto => set_parallel mc ParNone ;;; p <- pget ;;
             pret (mark_parallel k (p_thread p) (p_multi p) (negb (p_thread p) && negb (p_multi p)) true)
  | SPath => print_path mc SNone ;;; pret k
  | SVerbose => verbose mc SNone ;;; pret k
  | SCache => cache mc SNone ;;; pret k
  end.
(** model plumbing: a click on an entry of gui.py:550-600; an exception in the command leaves the mark turned *)
Definition click (s : marks * world) (e : entry) : marks * world :=
  let k := select e (turn e (fst s)) (w_par (snd s)) in
  match command e k (snd s) with (Ok k', w) => (k', w) | (Err _, w) => (k, w) end.
End Menus.
