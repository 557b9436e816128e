(** GENERATED by tools/gen_items.py from ast/y.go and Grammar.v.  Checked in Complete.v. *)
From Verif Require Import Bytes.

(** First tokens of the nonterminals as bit masks over token numbers, and which are nullable. *)
Definition firsts : list N := [23170703866885968176; 23170703866885968176; 23170703866885968128; 67239936; 34359739008; 4096; 16384; 32768; 23170703866885968128; 23170703453688168768; 23170703453688168704; 281474976710656; 128; 108895644634054656; 33554752; 33554688; 23170703453688168704; 8589934848; 2251799813685504; 23060681909130494208; 17179869184; 18446744073709551616; 1024; 1024; 256; 536870912; 2251799813685504; 134217728; 48; 32; 16; 1152; 64; 23170703901245708208; 34359740032; 34359740032; 0; 0; 0; 0; 147573952589676412928; 0]%N.
Definition nullables : list bool := [false; true; false; false; false; false; true; true; true; true; false; true; true; false; true; false; true; false; false; false; false; false; true; false; false; false; false; false; false; false; false; false; false; true; false; false; true; true; true; true; false; true].

(** The items of every state: production, position, level, mask of following tokens. *)
Definition items : list (list (Z * Z * Z * N)) := [
  [(1, 0, 0, 2%N); (2, 0, 0, 2%N); (3, 0, 0, 2%N); (4, 0, 0, 23170703901245708210%N); (5, 0, 0, 23170703901245708210%N); (6, 0, 0, 23170703901245708210%N); (7, 0, 0, 23170703901245708210%N); (8, 0, 0, 34359739904%N); (9, 0, 0, 34359739904%N); (12, 0, 0, 23170703901245708210%N); (14, 0, 0, 23170703901245708210%N); (15, 0, 0, 23170703901245708210%N); (16, 0, 0, 48%N); (17, 0, 0, 48%N); (18, 0, 0, 50%N); (19, 0, 0, 50%N); (28, 0, 0, 50%N); (33, 0, 0, 1143948939968380978%N); (35, 0, 0, 50%N); (37, 0, 0, 50%N); (39, 0, 0, 50%N); (44, 0, 0, 50%N); (45, 0, 0, 50%N); (46, 0, 0, 50%N); (47, 0, 0, 50%N); (48, 0, 0, 50%N); (49, 0, 0, 50%N); (50, 0, 0, 50%N); (51, 0, 0, 50%N); (52, 0, 0, 50%N); (53, 0, 0, 148717901529644793906%N); (54, 0, 0, 148717901529644793906%N); (55, 0, 0, 185611389677063897138%N); (56, 0, 0, 185611389677063897138%N); (57, 0, 0, 185611389677063897138%N); (58, 0, 0, 185611389677063897138%N); (59, 0, 0, 185611389677063897138%N); (63, 0, 0, 50%N); (64, 0, 12, 1143948939968380978%N); (65, 0, 12, 1143948939968380978%N); (66, 0, 12, 135142623437389874%N); (67, 0, 12, 135142623437389874%N); (68, 0, 12, 1143948939968380978%N); (69, 0, 12, 1143948939968380978%N); (70, 0, 12, 1143948939968380978%N); (71, 0, 12, 27056232380497970%N); (72, 0, 12, 27056232380497970%N); (73, 0, 12, 34634616274994%N); (74, 0, 12, 8796093022258%N); (75, 0, 12, 26388279066674%N); (76, 0, 12, 26938034880562%N); (77, 0, 12, 29137058136114%N); (78, 0, 12, 33535104647218%N); (79, 0, 12, 33535104647218%N); (80, 0, 12, 1143948939968380978%N); (81, 0, 12, 1143948939968380978%N); (82, 0, 12, 1143948939968380978%N); (83, 0, 12, 1143947840456753202%N); (88, 0, 0, 1143948939968380978%N); (89, 0, 0, 1143948939968380978%N); (90, 0, 0, 1143948939968380978%N); (91, 0, 0, 1143948939968380978%N); (92, 0, 0, 1143948939968380978%N); (93, 0, 0, 1143948939968380978%N); (94, 0, 0, 1143948939968380978%N); (95, 0, 0, 1143948939968380978%N); (96, 0, 0, 1143948939968380978%N); (103, 0, 0, 1143948939968380978%N); (104, 0, 0, 1143948939968380978%N); (105, 0, 0, 1143948939968380978%N); (106, 0, 0, 1143948939968380978%N)];
  [];
  [(2, 1, 0, 2%N); (17, 1, 0, 48%N)];
  [(3, 1, 0, 2%N); (5, 1, 0, 23170703901245708210%N); (6, 0, 0, 23170703901245708210%N); (7, 0, 0, 23170703901245708210%N); (8, 0, 0, 34359739904%N); (9, 0, 0, 34359739904%N); (12, 0, 0, 23170703901245708210%N); (14, 0, 0, 23170703901245708210%N); (15, 0, 0, 23170703901245708210%N); (16, 0, 0, 50%N); (17, 0, 0, 50%N); (18, 0, 0, 50%N); (19, 0, 0, 50%N); (28, 0, 0, 50%N); (33, 0, 0, 1143948939968380978%N); (35, 0, 0, 50%N); (37, 0, 0, 50%N); (39, 0, 0, 50%N); (44, 0, 0, 50%N); (45, 0, 0, 50%N); (46, 0, 0, 50%N); (47, 0, 0, 50%N); (48, 0, 0, 50%N); (49, 0, 0, 50%N); (50, 0, 0, 50%N); (51, 0, 0, 50%N); (52, 0, 0, 50%N); (53, 0, 0, 148717901529644793906%N); (54, 0, 0, 148717901529644793906%N); (55, 0, 0, 185611389677063897138%N); (56, 0, 0, 185611389677063897138%N); (57, 0, 0, 185611389677063897138%N); (58, 0, 0, 185611389677063897138%N); (59, 0, 0, 185611389677063897138%N); (63, 0, 0, 50%N); (64, 0, 12, 1143948939968380978%N); (65, 0, 12, 1143948939968380978%N); (66, 0, 12, 135142623437389874%N); (67, 0, 12, 135142623437389874%N); (68, 0, 12, 1143948939968380978%N); (69, 0, 12, 1143948939968380978%N); (70, 0, 12, 1143948939968380978%N); (71, 0, 12, 27056232380497970%N); (72, 0, 12, 27056232380497970%N); (73, 0, 12, 34634616274994%N); (74, 0, 12, 8796093022258%N); (75, 0, 12, 26388279066674%N); (76, 0, 12, 26938034880562%N); (77, 0, 12, 29137058136114%N); (78, 0, 12, 33535104647218%N); (79, 0, 12, 33535104647218%N); (80, 0, 12, 1143948939968380978%N); (81, 0, 12, 1143948939968380978%N); (82, 0, 12, 1143948939968380978%N); (83, 0, 12, 1143947840456753202%N); (88, 0, 0, 1143948939968380978%N); (89, 0, 0, 1143948939968380978%N); (90, 0, 0, 1143948939968380978%N); (91, 0, 0, 1143948939968380978%N); (92, 0, 0, 1143948939968380978%N); (93, 0, 0, 1143948939968380978%N); (94, 0, 0, 1143948939968380978%N); (95, 0, 0, 1143948939968380978%N); (96, 0, 0, 1143948939968380978%N); (103, 0, 0, 1143948939968380978%N); (104, 0, 0, 1143948939968380978%N); (105, 0, 0, 1143948939968380978%N); (106, 0, 0, 1143948939968380978%N)];
  [(18, 1, 0, 71945013298%N)];
  [(19, 1, 0, 50%N); (22, 0, 0, 23170703866885968178%N); (23, 0, 0, 23170703866885968178%N); (109, 0, 0, 23170703866885968178%N); (110, 0, 0, 23170703866885968178%N)];
  [(4, 1, 0, 23170703901245708210%N)];
  [(44, 1, 0, 71945013298%N); (54, 1, 0, 148717901601589807154%N); (83, 1, 12, 1143947912401766450%N); (112, 0, 0, 2251799813685504%N)];
  [(45, 1, 0, 71945013298%N); (66, 1, 12, 135142695382403122%N); (67, 1, 12, 135142695382403122%N); (68, 1, 12, 1143949011913394226%N); (69, 1, 12, 1143949011913394226%N); (70, 1, 12, 1143949011913394226%N); (71, 1, 12, 27056304325511218%N); (72, 1, 12, 27056304325511218%N); (73, 1, 12, 34706561288242%N); (74, 1, 12, 8868038035506%N); (75, 1, 12, 26460224079922%N); (76, 1, 12, 27009979893810%N); (77, 1, 12, 29209003149362%N); (78, 1, 12, 33607049660466%N)];
  [(46, 1, 0, 71945013298%N)];
  [(47, 1, 0, 71945013298%N)];
  [(48, 1, 0, 71945013298%N)];
  [(49, 1, 0, 71945013298%N)];
  [(50, 1, 0, 71945013298%N)];
  [(33, 0, 0, 1143949011913394226%N); (51, 1, 0, 71945013298%N); (53, 0, 0, 148717901601589807154%N); (54, 0, 0, 148717901601589807154%N); (55, 0, 0, 185611389749008910386%N); (56, 0, 0, 185611389749008910386%N); (57, 0, 0, 185611389749008910386%N); (58, 0, 0, 185611389749008910386%N); (59, 0, 0, 185611389749008910386%N); (64, 0, 0, 1143949011913394226%N); (65, 0, 0, 1143949011913394226%N); (66, 0, 0, 135142695382403122%N); (67, 0, 0, 135142695382403122%N); (68, 0, 0, 1143949011913394226%N); (69, 0, 0, 1143949011913394226%N); (70, 0, 0, 1143949011913394226%N); (71, 0, 0, 27056304325511218%N); (72, 0, 0, 27056304325511218%N); (73, 0, 0, 34706561288242%N); (74, 0, 0, 8868038035506%N); (75, 0, 0, 26460224079922%N); (76, 0, 0, 27009979893810%N); (77, 0, 0, 29209003149362%N); (78, 0, 0, 33607049660466%N); (79, 0, 0, 33607049660466%N); (80, 0, 0, 1143949011913394226%N); (81, 0, 0, 1143949011913394226%N); (82, 0, 0, 1143949011913394226%N); (83, 0, 0, 1143949011913394226%N); (84, 0, 0, 71945013298%N); (85, 0, 0, 71945013298%N); (88, 0, 0, 1143949011913394226%N); (89, 0, 0, 1143949011913394226%N); (90, 0, 0, 1143949011913394226%N); (91, 0, 0, 1143949011913394226%N); (92, 0, 0, 1143949011913394226%N); (93, 0, 0, 1143949011913394226%N); (94, 0, 0, 1143949011913394226%N); (95, 0, 0, 1143949011913394226%N); (96, 0, 0, 1143949011913394226%N); (103, 0, 0, 1143949011913394226%N); (104, 0, 0, 1143949011913394226%N); (105, 0, 0, 1143949011913394226%N); (106, 0, 0, 1143949011913394226%N)];
  [(33, 0, 0, 1143949011913394226%N); (52, 1, 0, 71945013298%N); (53, 0, 0, 148717901601589807154%N); (54, 0, 0, 148717901601589807154%N); (55, 0, 0, 185611389749008910386%N); (56, 0, 0, 185611389749008910386%N); (57, 0, 0, 185611389749008910386%N); (58, 0, 0, 185611389749008910386%N); (59, 0, 0, 185611389749008910386%N); (64, 0, 0, 1143949011913394226%N); (65, 0, 0, 1143949011913394226%N); (66, 0, 0, 135142695382403122%N); (67, 0, 0, 135142695382403122%N); (68, 0, 0, 1143949011913394226%N); (69, 0, 0, 1143949011913394226%N); (70, 0, 0, 1143949011913394226%N); (71, 0, 0, 27056304325511218%N); (72, 0, 0, 27056304325511218%N); (73, 0, 0, 34706561288242%N); (74, 0, 0, 8868038035506%N); (75, 0, 0, 26460224079922%N); (76, 0, 0, 27009979893810%N); (77, 0, 0, 29209003149362%N); (78, 0, 0, 33607049660466%N); (79, 0, 0, 33607049660466%N); (80, 0, 0, 1143949011913394226%N); (81, 0, 0, 1143949011913394226%N); (82, 0, 0, 1143949011913394226%N); (83, 0, 0, 1143949011913394226%N); (84, 0, 0, 71945013298%N); (85, 0, 0, 71945013298%N); (88, 0, 0, 1143949011913394226%N); (89, 0, 0, 1143949011913394226%N); (90, 0, 0, 1143949011913394226%N); (91, 0, 0, 1143949011913394226%N); (92, 0, 0, 1143949011913394226%N); (93, 0, 0, 1143949011913394226%N); (94, 0, 0, 1143949011913394226%N); (95, 0, 0, 1143949011913394226%N); (96, 0, 0, 1143949011913394226%N); (103, 0, 0, 1143949011913394226%N); (104, 0, 0, 1143949011913394226%N); (105, 0, 0, 1143949011913394226%N); (106, 0, 0, 1143949011913394226%N)];
  [(6, 1, 0, 23170703901245708210%N)];
  [(7, 1, 0, 23170703901245708210%N)];
  [(53, 1, 0, 231728249933285943410%N); (57, 1, 0, 268621738080705046642%N)];
  [(64, 1, 0, 84154297343609530482%N); (64, 1, 1, 84154297343609530482%N); (64, 1, 2, 84154297343609530482%N); (64, 1, 3, 84154297343609530482%N); (64, 1, 4, 84154297343609530482%N); (64, 1, 5, 84154297343609530482%N); (64, 1, 6, 84154297343609530482%N); (64, 1, 7, 84154297343609530482%N); (64, 1, 8, 84154297343609530482%N); (64, 1, 9, 84154297343609530482%N); (64, 1, 10, 84154297343609530482%N); (64, 1, 11, 84154297343609530482%N); (64, 1, 12, 1143949011913394226%N)];
  [(33, 0, 0, 10367320976823156800%N); (53, 0, 0, 157941273566499569728%N); (54, 0, 0, 157941273566499569728%N); (55, 0, 0, 194834761713918672960%N); (56, 0, 0, 194834761713918672960%N); (57, 0, 0, 194834761713918672960%N); (58, 0, 0, 194834761713918672960%N); (59, 0, 0, 194834761713918672960%N); (64, 0, 0, 10367320976823156800%N); (65, 0, 0, 10367320976823156800%N); (65, 1, 0, 84154297343609530482%N); (65, 1, 1, 84154297343609530482%N); (65, 1, 2, 84154297343609530482%N); (65, 1, 3, 84154297343609530482%N); (65, 1, 4, 84154297343609530482%N); (65, 1, 5, 84154297343609530482%N); (65, 1, 6, 84154297343609530482%N); (65, 1, 7, 84154297343609530482%N); (65, 1, 8, 84154297343609530482%N); (65, 1, 9, 84154297343609530482%N); (65, 1, 10, 84154297343609530482%N); (65, 1, 11, 84154297343609530482%N); (65, 1, 12, 1143949011913394226%N); (66, 0, 0, 9358514660292165696%N); (67, 0, 0, 9358514660292165696%N); (68, 0, 0, 10367320976823156800%N); (69, 0, 0, 10367320976823156800%N); (70, 0, 0, 10367320976823156800%N); (71, 0, 0, 9250428269235273792%N); (72, 0, 0, 9250428269235273792%N); (73, 0, 0, 9223406671471050816%N); (74, 0, 0, 9223380832947798080%N); (75, 0, 0, 9223398425133842496%N); (76, 0, 0, 9223398974889656384%N); (77, 0, 0, 9223401173912911936%N); (78, 0, 0, 9223405571959423040%N); (79, 0, 0, 9223405571959423040%N); (80, 0, 0, 10367320976823156800%N); (81, 0, 0, 10367320976823156800%N); (82, 0, 0, 10367320976823156800%N); (83, 0, 0, 10367320976823156800%N); (84, 0, 0, 9223372036854775872%N); (85, 0, 0, 9223372036854775872%N); (86, 0, 0, 9223372036854775872%N); (87, 0, 0, 9223372036854775872%N); (88, 0, 0, 10367320976823156800%N); (89, 0, 0, 10367320976823156800%N); (90, 0, 0, 10367320976823156800%N); (91, 0, 0, 10367320976823156800%N); (92, 0, 0, 10367320976823156800%N); (93, 0, 0, 10367320976823156800%N); (94, 0, 0, 10367320976823156800%N); (95, 0, 0, 10367320976823156800%N); (96, 0, 0, 10367320976823156800%N); (103, 0, 0, 10367320976823156800%N); (104, 0, 0, 10367320976823156800%N); (105, 0, 0, 10367320976823156800%N); (106, 0, 0, 10367320976823156800%N)];
  [(33, 0, 0, 84154297343609530482%N); (53, 0, 0, 231728249933285943410%N); (54, 0, 0, 231728249933285943410%N); (55, 0, 0, 268621738080705046642%N); (56, 0, 0, 268621738080705046642%N); (57, 0, 0, 268621738080705046642%N); (58, 0, 0, 268621738080705046642%N); (59, 0, 0, 268621738080705046642%N); (64, 0, 6, 84154297343609530482%N); (65, 0, 6, 84154297343609530482%N); (66, 0, 6, 83145491027078539378%N); (67, 0, 6, 83145491027078539378%N); (68, 0, 6, 84154297343609530482%N); (69, 0, 6, 84154297343609530482%N); (70, 0, 6, 84154297343609530482%N); (71, 0, 6, 83037404636021647474%N); (72, 0, 6, 83037404636021647474%N); (73, 0, 6, 83010383038257424498%N); (79, 0, 6, 83010381938745796722%N); (79, 1, 0, 83010381938745796722%N); (79, 1, 1, 83010381938745796722%N); (79, 1, 2, 83010381938745796722%N); (79, 1, 3, 83010381938745796722%N); (79, 1, 4, 83010381938745796722%N); (79, 1, 5, 83010381938745796722%N); (79, 1, 6, 83010381938745796722%N); (79, 1, 7, 83010381938745796722%N); (79, 1, 8, 83010381938745796722%N); (79, 1, 9, 83010381938745796722%N); (79, 1, 10, 83010381938745796722%N); (79, 1, 11, 83010381938745796722%N); (79, 1, 12, 33607049660466%N); (80, 0, 6, 84154297343609530482%N); (81, 0, 6, 84154297343609530482%N); (82, 0, 6, 84154297343609530482%N); (83, 0, 6, 84154297343609530482%N); (88, 0, 0, 84154297343609530482%N); (89, 0, 0, 84154297343609530482%N); (90, 0, 0, 84154297343609530482%N); (91, 0, 0, 84154297343609530482%N); (92, 0, 0, 84154297343609530482%N); (93, 0, 0, 84154297343609530482%N); (94, 0, 0, 84154297343609530482%N); (95, 0, 0, 84154297343609530482%N); (96, 0, 0, 84154297343609530482%N); (103, 0, 0, 84154297343609530482%N); (104, 0, 0, 84154297343609530482%N); (105, 0, 0, 84154297343609530482%N); (106, 0, 0, 84154297343609530482%N)];
  [(80, 1, 0, 84154297343609530482%N); (80, 1, 1, 84154297343609530482%N); (80, 1, 2, 84154297343609530482%N); (80, 1, 3, 84154297343609530482%N); (80, 1, 4, 84154297343609530482%N); (80, 1, 5, 84154297343609530482%N); (80, 1, 6, 84154297343609530482%N); (80, 1, 7, 84154297343609530482%N); (80, 1, 8, 84154297343609530482%N); (80, 1, 9, 84154297343609530482%N); (80, 1, 10, 84154297343609530482%N); (80, 1, 11, 84154297343609530482%N); (80, 1, 12, 1143949011913394226%N)];
  [(81, 1, 0, 84154297343609530482%N); (81, 1, 1, 84154297343609530482%N); (81, 1, 2, 84154297343609530482%N); (81, 1, 3, 84154297343609530482%N); (81, 1, 4, 84154297343609530482%N); (81, 1, 5, 84154297343609530482%N); (81, 1, 6, 84154297343609530482%N); (81, 1, 7, 84154297343609530482%N); (81, 1, 8, 84154297343609530482%N); (81, 1, 9, 84154297343609530482%N); (81, 1, 10, 84154297343609530482%N); (81, 1, 11, 84154297343609530482%N); (81, 1, 12, 1143949011913394226%N); (106, 0, 0, 84154297343609530482%N)];
  [(82, 1, 0, 84154297343609530482%N); (82, 1, 1, 84154297343609530482%N); (82, 1, 2, 84154297343609530482%N); (82, 1, 3, 84154297343609530482%N); (82, 1, 4, 84154297343609530482%N); (82, 1, 5, 84154297343609530482%N); (82, 1, 6, 84154297343609530482%N); (82, 1, 7, 84154297343609530482%N); (82, 1, 8, 84154297343609530482%N); (82, 1, 9, 84154297343609530482%N); (82, 1, 10, 84154297343609530482%N); (82, 1, 11, 84154297343609530482%N); (82, 1, 12, 1143949011913394226%N)];
  [(28, 1, 0, 71945013298%N); (33, 0, 0, 1143948939968389120%N); (53, 0, 0, 148717901529644802048%N); (54, 0, 0, 148717901529644802048%N); (55, 0, 0, 185611389677063905280%N); (56, 0, 0, 185611389677063905280%N); (57, 0, 0, 185611389677063905280%N); (58, 0, 0, 185611389677063905280%N); (59, 0, 0, 185611389677063905280%N); (64, 0, 0, 1143948939968389120%N); (65, 0, 0, 1143948939968389120%N); (66, 0, 0, 135142623437398016%N); (67, 0, 0, 135142623437398016%N); (68, 0, 0, 1143948939968389120%N); (69, 0, 0, 1143948939968389120%N); (70, 0, 0, 1143948939968389120%N); (71, 0, 0, 27056232380506112%N); (72, 0, 0, 27056232380506112%N); (73, 0, 0, 34634616283136%N); (74, 0, 0, 8796093030400%N); (75, 0, 0, 26388279074816%N); (76, 0, 0, 26938034888704%N); (77, 0, 0, 29137058144256%N); (78, 0, 0, 33535104655360%N); (79, 0, 0, 33535104655360%N); (80, 0, 0, 1143948939968389120%N); (81, 0, 0, 1143948939968389120%N); (82, 0, 0, 1143948939968389120%N); (83, 0, 0, 1143948939968389120%N); (88, 0, 0, 1143948939968389120%N); (89, 0, 0, 1143948939968389120%N); (90, 0, 0, 1143948939968389120%N); (91, 0, 0, 1143948939968389120%N); (92, 0, 0, 1143948939968389120%N); (93, 0, 0, 1143948939968389120%N); (94, 0, 0, 1143948939968389120%N); (95, 0, 0, 1143948939968389120%N); (96, 0, 0, 1143948939968389120%N); (103, 0, 0, 1143948939968389120%N); (104, 0, 0, 1143948939968389120%N); (105, 0, 0, 1143948939968389120%N); (106, 0, 0, 1143948939968389120%N)];
  [(33, 0, 0, 1143948939969429504%N); (35, 1, 0, 71945013298%N); (37, 1, 0, 71945013298%N); (53, 0, 0, 148717901529645842432%N); (54, 0, 0, 148717901529645842432%N); (55, 0, 0, 185611389677064945664%N); (56, 0, 0, 185611389677064945664%N); (57, 0, 0, 185611389677064945664%N); (58, 0, 0, 185611389677064945664%N); (59, 0, 0, 185611389677064945664%N); (64, 0, 0, 1143948939969429504%N); (65, 0, 0, 1143948939969429504%N); (66, 0, 0, 135142623438438400%N); (67, 0, 0, 135142623438438400%N); (68, 0, 0, 1143948939969429504%N); (69, 0, 0, 1143948939969429504%N); (70, 0, 0, 1143948939969429504%N); (71, 0, 0, 27056232381546496%N); (72, 0, 0, 27056232381546496%N); (73, 0, 0, 34634617323520%N); (74, 0, 0, 8796094070784%N); (75, 0, 0, 26388280115200%N); (76, 0, 0, 26938035929088%N); (77, 0, 0, 29137059184640%N); (78, 0, 0, 33535105695744%N); (79, 0, 0, 33535105695744%N); (80, 0, 0, 1143948939969429504%N); (81, 0, 0, 1143948939969429504%N); (82, 0, 0, 1143948939969429504%N); (83, 0, 0, 1143948939969429504%N); (88, 0, 0, 1143948939969429504%N); (89, 0, 0, 1143948939969429504%N); (90, 0, 0, 1143948939969429504%N); (91, 0, 0, 1143948939969429504%N); (92, 0, 0, 1143948939969429504%N); (93, 0, 0, 1143948939969429504%N); (94, 0, 0, 1143948939969429504%N); (95, 0, 0, 1143948939969429504%N); (96, 0, 0, 1143948939969429504%N); (103, 0, 0, 1143948939969429504%N); (104, 0, 0, 1143948939969429504%N); (105, 0, 0, 1143948939969429504%N); (106, 0, 0, 1143948939969429504%N)];
  [(33, 0, 0, 1143948939970478080%N); (39, 1, 0, 71945013298%N); (53, 0, 0, 148717901529646891008%N); (54, 0, 0, 148717901529646891008%N); (55, 0, 0, 185611389677065994240%N); (56, 0, 0, 185611389677065994240%N); (57, 0, 0, 185611389677065994240%N); (58, 0, 0, 185611389677065994240%N); (59, 0, 0, 185611389677065994240%N); (64, 0, 0, 1143948939970478080%N); (65, 0, 0, 1143948939970478080%N); (66, 0, 0, 135142623439486976%N); (67, 0, 0, 135142623439486976%N); (68, 0, 0, 1143948939970478080%N); (69, 0, 0, 1143948939970478080%N); (70, 0, 0, 1143948939970478080%N); (71, 0, 0, 27056232382595072%N); (72, 0, 0, 27056232382595072%N); (73, 0, 0, 34634618372096%N); (74, 0, 0, 8796095119360%N); (75, 0, 0, 26388281163776%N); (76, 0, 0, 26938036977664%N); (77, 0, 0, 29137060233216%N); (78, 0, 0, 33535106744320%N); (79, 0, 0, 33535106744320%N); (80, 0, 0, 1143948939970478080%N); (81, 0, 0, 1143948939970478080%N); (82, 0, 0, 1143948939970478080%N); (83, 0, 0, 1143948939970478080%N); (88, 0, 0, 1143948939970478080%N); (89, 0, 0, 1143948939970478080%N); (90, 0, 0, 1143948939970478080%N); (91, 0, 0, 1143948939970478080%N); (92, 0, 0, 1143948939970478080%N); (93, 0, 0, 1143948939970478080%N); (94, 0, 0, 1143948939970478080%N); (95, 0, 0, 1143948939970478080%N); (96, 0, 0, 1143948939970478080%N); (103, 0, 0, 1143948939970478080%N); (104, 0, 0, 1143948939970478080%N); (105, 0, 0, 1143948939970478080%N); (106, 0, 0, 1143948939970478080%N)];
  [(16, 0, 0, 1073741872%N); (17, 0, 0, 1073741872%N); (18, 0, 0, 1073741872%N); (19, 0, 0, 1073741872%N); (28, 0, 0, 1073741872%N); (33, 0, 0, 1143948941042122800%N); (35, 0, 0, 1073741872%N); (37, 0, 0, 1073741872%N); (39, 0, 0, 1073741872%N); (44, 0, 0, 1073741872%N); (45, 0, 0, 1073741872%N); (46, 0, 0, 1073741872%N); (47, 0, 0, 1073741872%N); (48, 0, 0, 1073741872%N); (49, 0, 0, 1073741872%N); (50, 0, 0, 1073741872%N); (51, 0, 0, 1073741872%N); (52, 0, 0, 1073741872%N); (53, 0, 0, 148717901530718535728%N); (54, 0, 0, 148717901530718535728%N); (55, 0, 0, 185611389678137638960%N); (56, 0, 0, 185611389678137638960%N); (57, 0, 0, 185611389678137638960%N); (58, 0, 0, 185611389678137638960%N); (59, 0, 0, 185611389678137638960%N); (63, 0, 0, 1073741872%N); (63, 1, 0, 71945013298%N); (64, 0, 12, 1143948941042122800%N); (65, 0, 12, 1143948941042122800%N); (66, 0, 12, 135142624511131696%N); (67, 0, 12, 135142624511131696%N); (68, 0, 12, 1143948941042122800%N); (69, 0, 12, 1143948941042122800%N); (70, 0, 12, 1143948941042122800%N); (71, 0, 12, 27056233454239792%N); (72, 0, 12, 27056233454239792%N); (73, 0, 12, 34635690016816%N); (74, 0, 12, 8797166764080%N); (75, 0, 12, 26389352808496%N); (76, 0, 12, 26939108622384%N); (77, 0, 12, 29138131877936%N); (78, 0, 12, 33536178389040%N); (79, 0, 12, 33536178389040%N); (80, 0, 12, 1143948941042122800%N); (81, 0, 12, 1143948941042122800%N); (82, 0, 12, 1143948941042122800%N); (83, 0, 12, 1143947841530495024%N); (88, 0, 0, 1143948941042122800%N); (89, 0, 0, 1143948941042122800%N); (90, 0, 0, 1143948941042122800%N); (91, 0, 0, 1143948941042122800%N); (92, 0, 0, 1143948941042122800%N); (93, 0, 0, 1143948941042122800%N); (94, 0, 0, 1143948941042122800%N); (95, 0, 0, 1143948941042122800%N); (96, 0, 0, 1143948941042122800%N); (103, 0, 0, 1143948941042122800%N); (104, 0, 0, 1143948941042122800%N); (105, 0, 0, 1143948941042122800%N); (106, 0, 0, 1143948941042122800%N)];
  [(12, 1, 0, 23170703901245708210%N); (14, 1, 0, 23170703901245708210%N); (15, 1, 0, 23170703901245708210%N)];
  [(55, 1, 0, 268621738080705046642%N); (56, 1, 0, 268621738080705046642%N)];
  [(58, 1, 0, 268621738080705046642%N); (59, 1, 0, 268621738080705046642%N); (60, 0, 0, 268621738080705046642%N); (61, 0, 0, 268621738080705046642%N)];
  [(88, 1, 0, 84154297343609530482%N)];
  [(89, 1, 0, 84154297343609530482%N)];
  [(33, 0, 0, 84154297343609530482%N); (53, 0, 0, 231728249933285943410%N); (54, 0, 0, 231728249933285943410%N); (55, 0, 0, 268621738080705046642%N); (56, 0, 0, 268621738080705046642%N); (57, 0, 0, 268621738080705046642%N); (58, 0, 0, 268621738080705046642%N); (59, 0, 0, 268621738080705046642%N); (64, 0, 11, 84154297343609530482%N); (65, 0, 11, 84154297343609530482%N); (79, 0, 11, 83010381938745796722%N); (80, 0, 11, 84154297343609530482%N); (81, 0, 11, 84154297343609530482%N); (82, 0, 11, 84154297343609530482%N); (83, 0, 11, 84154297343609530482%N); (88, 0, 0, 84154297343609530482%N); (89, 0, 0, 84154297343609530482%N); (90, 0, 0, 84154297343609530482%N); (90, 1, 0, 84154297343609530482%N); (91, 0, 0, 84154297343609530482%N); (92, 0, 0, 84154297343609530482%N); (93, 0, 0, 84154297343609530482%N); (94, 0, 0, 84154297343609530482%N); (95, 0, 0, 84154297343609530482%N); (96, 0, 0, 84154297343609530482%N); (103, 0, 0, 84154297343609530482%N); (104, 0, 0, 84154297343609530482%N); (105, 0, 0, 84154297343609530482%N); (106, 0, 0, 84154297343609530482%N)];
  [(33, 0, 0, 84154297343609530482%N); (53, 0, 0, 231728249933285943410%N); (54, 0, 0, 231728249933285943410%N); (55, 0, 0, 268621738080705046642%N); (56, 0, 0, 268621738080705046642%N); (57, 0, 0, 268621738080705046642%N); (58, 0, 0, 268621738080705046642%N); (59, 0, 0, 268621738080705046642%N); (64, 0, 11, 84154297343609530482%N); (65, 0, 11, 84154297343609530482%N); (79, 0, 11, 83010381938745796722%N); (80, 0, 11, 84154297343609530482%N); (81, 0, 11, 84154297343609530482%N); (82, 0, 11, 84154297343609530482%N); (83, 0, 11, 84154297343609530482%N); (88, 0, 0, 84154297343609530482%N); (89, 0, 0, 84154297343609530482%N); (90, 0, 0, 84154297343609530482%N); (91, 0, 0, 84154297343609530482%N); (91, 1, 0, 84154297343609530482%N); (92, 0, 0, 84154297343609530482%N); (93, 0, 0, 84154297343609530482%N); (94, 0, 0, 84154297343609530482%N); (95, 0, 0, 84154297343609530482%N); (96, 0, 0, 84154297343609530482%N); (103, 0, 0, 84154297343609530482%N); (104, 0, 0, 84154297343609530482%N); (105, 0, 0, 84154297343609530482%N); (106, 0, 0, 84154297343609530482%N)];
  [(92, 1, 0, 84154297343609530482%N)];
  [(93, 1, 0, 84154297343609530482%N)];
  [(94, 1, 0, 84154297343609530482%N)];
  [(95, 1, 0, 84154297343609530482%N)];
  [(96, 1, 0, 84154297343609530482%N)];
  [(103, 1, 0, 84154297343609530482%N); (104, 1, 0, 84154297343609530482%N); (105, 1, 0, 84154297343609530482%N)];
  [(33, 1, 0, 84154297343609530482%N)];
  [(9, 1, 0, 34359739904%N)];
  [(106, 1, 0, 84154297343609530482%N)];
  [(3, 2, 0, 2%N); (19, 1, 0, 50%N); (22, 0, 0, 23170703866885968178%N); (23, 0, 0, 23170703866885968178%N); (109, 0, 0, 23170703866885968178%N); (110, 0, 0, 23170703866885968178%N)];
  [(5, 2, 0, 23170703901245708210%N)];
  [(17, 1, 0, 71945013298%N)];
  [(19, 2, 0, 71945013298%N); (20, 0, 0, 71945013298%N); (21, 0, 0, 71945013298%N); (28, 0, 0, 71945013298%N); (33, 0, 0, 1143949011913394226%N); (35, 0, 0, 71945013298%N); (37, 0, 0, 71945013298%N); (39, 0, 0, 71945013298%N); (44, 0, 0, 71945013298%N); (45, 0, 0, 71945013298%N); (46, 0, 0, 71945013298%N); (47, 0, 0, 71945013298%N); (48, 0, 0, 71945013298%N); (49, 0, 0, 71945013298%N); (50, 0, 0, 71945013298%N); (51, 0, 0, 71945013298%N); (52, 0, 0, 71945013298%N); (53, 0, 0, 148717901601589807154%N); (54, 0, 0, 148717901601589807154%N); (55, 0, 0, 185611389749008910386%N); (56, 0, 0, 185611389749008910386%N); (57, 0, 0, 185611389749008910386%N); (58, 0, 0, 185611389749008910386%N); (59, 0, 0, 185611389749008910386%N); (63, 0, 0, 71945013298%N); (64, 0, 12, 1143949011913394226%N); (65, 0, 12, 1143949011913394226%N); (66, 0, 12, 135142695382403122%N); (67, 0, 12, 135142695382403122%N); (68, 0, 12, 1143949011913394226%N); (69, 0, 12, 1143949011913394226%N); (70, 0, 12, 1143949011913394226%N); (71, 0, 12, 27056304325511218%N); (72, 0, 12, 27056304325511218%N); (73, 0, 12, 34706561288242%N); (74, 0, 12, 8868038035506%N); (75, 0, 12, 26460224079922%N); (76, 0, 12, 27009979893810%N); (77, 0, 12, 29209003149362%N); (78, 0, 12, 33607049660466%N); (79, 0, 12, 33607049660466%N); (80, 0, 12, 1143949011913394226%N); (81, 0, 12, 1143949011913394226%N); (82, 0, 12, 1143949011913394226%N); (83, 0, 12, 1143947912401766450%N); (88, 0, 0, 1143949011913394226%N); (89, 0, 0, 1143949011913394226%N); (90, 0, 0, 1143949011913394226%N); (91, 0, 0, 1143949011913394226%N); (92, 0, 0, 1143949011913394226%N); (93, 0, 0, 1143949011913394226%N); (94, 0, 0, 1143949011913394226%N); (95, 0, 0, 1143949011913394226%N); (96, 0, 0, 1143949011913394226%N); (103, 0, 0, 1143949011913394226%N); (104, 0, 0, 1143949011913394226%N); (105, 0, 0, 1143949011913394226%N); (106, 0, 0, 1143949011913394226%N)];
  [(22, 1, 0, 23170703938830981426%N)];
  [(23, 1, 0, 23170703938830981426%N)];
  [(109, 1, 0, 23170703973190721458%N)];
  [(110, 1, 0, 23170703938830981426%N)];
  [(33, 0, 0, 1143949011913394226%N); (44, 2, 0, 71945013298%N); (53, 0, 0, 148717901601589807154%N); (54, 0, 0, 148717901601589807154%N); (55, 0, 0, 185611389749008910386%N); (56, 0, 0, 185611389749008910386%N); (57, 0, 0, 185611389749008910386%N); (58, 0, 0, 185611389749008910386%N); (59, 0, 0, 185611389749008910386%N); (64, 0, 0, 1143949011913394226%N); (65, 0, 0, 1143949011913394226%N); (66, 0, 0, 135142695382403122%N); (67, 0, 0, 135142695382403122%N); (68, 0, 0, 1143949011913394226%N); (69, 0, 0, 1143949011913394226%N); (70, 0, 0, 1143949011913394226%N); (71, 0, 0, 27056304325511218%N); (72, 0, 0, 27056304325511218%N); (73, 0, 0, 34706561288242%N); (74, 0, 0, 8868038035506%N); (75, 0, 0, 26460224079922%N); (76, 0, 0, 27009979893810%N); (77, 0, 0, 29209003149362%N); (78, 0, 0, 33607049660466%N); (79, 0, 0, 33607049660466%N); (80, 0, 0, 1143949011913394226%N); (81, 0, 0, 1143949011913394226%N); (82, 0, 0, 1143949011913394226%N); (83, 0, 0, 1143949011913394226%N); (88, 0, 0, 1143949011913394226%N); (89, 0, 0, 1143949011913394226%N); (90, 0, 0, 1143949011913394226%N); (91, 0, 0, 1143949011913394226%N); (92, 0, 0, 1143949011913394226%N); (93, 0, 0, 1143949011913394226%N); (94, 0, 0, 1143949011913394226%N); (95, 0, 0, 1143949011913394226%N); (96, 0, 0, 1143949011913394226%N); (103, 0, 0, 1143949011913394226%N); (104, 0, 0, 1143949011913394226%N); (105, 0, 0, 1143949011913394226%N); (106, 0, 0, 1143949011913394226%N)];
  [(54, 2, 0, 231728249933285943410%N); (55, 0, 0, 268621738080705046642%N); (56, 0, 0, 268621738080705046642%N); (57, 0, 0, 268621738080705046642%N); (58, 0, 0, 268621738080705046642%N); (59, 0, 0, 268621738080705046642%N)];
  [(112, 1, 0, 2251799813685504%N)];
  [(33, 0, 0, 84154297343609530482%N); (53, 0, 0, 231728249933285943410%N); (54, 0, 0, 231728249933285943410%N); (55, 0, 0, 268621738080705046642%N); (56, 0, 0, 268621738080705046642%N); (57, 0, 0, 268621738080705046642%N); (58, 0, 0, 268621738080705046642%N); (59, 0, 0, 268621738080705046642%N); (64, 0, 9, 84154297343609530482%N); (65, 0, 9, 84154297343609530482%N); (66, 2, 0, 83145491027078539378%N); (66, 2, 1, 83145491027078539378%N); (66, 2, 2, 83145491027078539378%N); (66, 2, 3, 83145491027078539378%N); (66, 2, 4, 83145491027078539378%N); (66, 2, 5, 83145491027078539378%N); (66, 2, 6, 83145491027078539378%N); (66, 2, 7, 83145491027078539378%N); (66, 2, 8, 83145491027078539378%N); (66, 2, 12, 135142695382403122%N); (68, 0, 9, 84154297343609530482%N); (69, 0, 9, 84154297343609530482%N); (70, 0, 9, 84154297343609530482%N); (79, 0, 9, 83010381938745796722%N); (80, 0, 9, 84154297343609530482%N); (81, 0, 9, 84154297343609530482%N); (82, 0, 9, 84154297343609530482%N); (83, 0, 9, 84154297343609530482%N); (88, 0, 0, 84154297343609530482%N); (89, 0, 0, 84154297343609530482%N); (90, 0, 0, 84154297343609530482%N); (91, 0, 0, 84154297343609530482%N); (92, 0, 0, 84154297343609530482%N); (93, 0, 0, 84154297343609530482%N); (94, 0, 0, 84154297343609530482%N); (95, 0, 0, 84154297343609530482%N); (96, 0, 0, 84154297343609530482%N); (103, 0, 0, 84154297343609530482%N); (104, 0, 0, 84154297343609530482%N); (105, 0, 0, 84154297343609530482%N); (106, 0, 0, 84154297343609530482%N)];
  [(33, 0, 0, 84154297343609530482%N); (53, 0, 0, 231728249933285943410%N); (54, 0, 0, 231728249933285943410%N); (55, 0, 0, 268621738080705046642%N); (56, 0, 0, 268621738080705046642%N); (57, 0, 0, 268621738080705046642%N); (58, 0, 0, 268621738080705046642%N); (59, 0, 0, 268621738080705046642%N); (64, 0, 9, 84154297343609530482%N); (65, 0, 9, 84154297343609530482%N); (67, 2, 0, 83145491027078539378%N); (67, 2, 1, 83145491027078539378%N); (67, 2, 2, 83145491027078539378%N); (67, 2, 3, 83145491027078539378%N); (67, 2, 4, 83145491027078539378%N); (67, 2, 5, 83145491027078539378%N); (67, 2, 6, 83145491027078539378%N); (67, 2, 7, 83145491027078539378%N); (67, 2, 8, 83145491027078539378%N); (67, 2, 12, 135142695382403122%N); (68, 0, 9, 84154297343609530482%N); (69, 0, 9, 84154297343609530482%N); (70, 0, 9, 84154297343609530482%N); (79, 0, 9, 83010381938745796722%N); (80, 0, 9, 84154297343609530482%N); (81, 0, 9, 84154297343609530482%N); (82, 0, 9, 84154297343609530482%N); (83, 0, 9, 84154297343609530482%N); (88, 0, 0, 84154297343609530482%N); (89, 0, 0, 84154297343609530482%N); (90, 0, 0, 84154297343609530482%N); (91, 0, 0, 84154297343609530482%N); (92, 0, 0, 84154297343609530482%N); (93, 0, 0, 84154297343609530482%N); (94, 0, 0, 84154297343609530482%N); (95, 0, 0, 84154297343609530482%N); (96, 0, 0, 84154297343609530482%N); (103, 0, 0, 84154297343609530482%N); (104, 0, 0, 84154297343609530482%N); (105, 0, 0, 84154297343609530482%N); (106, 0, 0, 84154297343609530482%N)];
  [(33, 0, 0, 84154297343609530482%N); (53, 0, 0, 231728249933285943410%N); (54, 0, 0, 231728249933285943410%N); (55, 0, 0, 268621738080705046642%N); (56, 0, 0, 268621738080705046642%N); (57, 0, 0, 268621738080705046642%N); (58, 0, 0, 268621738080705046642%N); (59, 0, 0, 268621738080705046642%N); (64, 0, 10, 84154297343609530482%N); (65, 0, 10, 84154297343609530482%N); (68, 2, 0, 84154297343609530482%N); (68, 2, 1, 84154297343609530482%N); (68, 2, 2, 84154297343609530482%N); (68, 2, 3, 84154297343609530482%N); (68, 2, 4, 84154297343609530482%N); (68, 2, 5, 84154297343609530482%N); (68, 2, 6, 84154297343609530482%N); (68, 2, 7, 84154297343609530482%N); (68, 2, 8, 84154297343609530482%N); (68, 2, 9, 84154297343609530482%N); (68, 2, 12, 1143949011913394226%N); (79, 0, 10, 83010381938745796722%N); (80, 0, 10, 84154297343609530482%N); (81, 0, 10, 84154297343609530482%N); (82, 0, 10, 84154297343609530482%N); (83, 0, 10, 84154297343609530482%N); (88, 0, 0, 84154297343609530482%N); (89, 0, 0, 84154297343609530482%N); (90, 0, 0, 84154297343609530482%N); (91, 0, 0, 84154297343609530482%N); (92, 0, 0, 84154297343609530482%N); (93, 0, 0, 84154297343609530482%N); (94, 0, 0, 84154297343609530482%N); (95, 0, 0, 84154297343609530482%N); (96, 0, 0, 84154297343609530482%N); (103, 0, 0, 84154297343609530482%N); (104, 0, 0, 84154297343609530482%N); (105, 0, 0, 84154297343609530482%N); (106, 0, 0, 84154297343609530482%N)];
  [(33, 0, 0, 84154297343609530482%N); (53, 0, 0, 231728249933285943410%N); (54, 0, 0, 231728249933285943410%N); (55, 0, 0, 268621738080705046642%N); (56, 0, 0, 268621738080705046642%N); (57, 0, 0, 268621738080705046642%N); (58, 0, 0, 268621738080705046642%N); (59, 0, 0, 268621738080705046642%N); (64, 0, 10, 84154297343609530482%N); (65, 0, 10, 84154297343609530482%N); (69, 2, 0, 84154297343609530482%N); (69, 2, 1, 84154297343609530482%N); (69, 2, 2, 84154297343609530482%N); (69, 2, 3, 84154297343609530482%N); (69, 2, 4, 84154297343609530482%N); (69, 2, 5, 84154297343609530482%N); (69, 2, 6, 84154297343609530482%N); (69, 2, 7, 84154297343609530482%N); (69, 2, 8, 84154297343609530482%N); (69, 2, 9, 84154297343609530482%N); (69, 2, 12, 1143949011913394226%N); (79, 0, 10, 83010381938745796722%N); (80, 0, 10, 84154297343609530482%N); (81, 0, 10, 84154297343609530482%N); (82, 0, 10, 84154297343609530482%N); (83, 0, 10, 84154297343609530482%N); (88, 0, 0, 84154297343609530482%N); (89, 0, 0, 84154297343609530482%N); (90, 0, 0, 84154297343609530482%N); (91, 0, 0, 84154297343609530482%N); (92, 0, 0, 84154297343609530482%N); (93, 0, 0, 84154297343609530482%N); (94, 0, 0, 84154297343609530482%N); (95, 0, 0, 84154297343609530482%N); (96, 0, 0, 84154297343609530482%N); (103, 0, 0, 84154297343609530482%N); (104, 0, 0, 84154297343609530482%N); (105, 0, 0, 84154297343609530482%N); (106, 0, 0, 84154297343609530482%N)];
  [(33, 0, 0, 84154297343609530482%N); (53, 0, 0, 231728249933285943410%N); (54, 0, 0, 231728249933285943410%N); (55, 0, 0, 268621738080705046642%N); (56, 0, 0, 268621738080705046642%N); (57, 0, 0, 268621738080705046642%N); (58, 0, 0, 268621738080705046642%N); (59, 0, 0, 268621738080705046642%N); (64, 0, 10, 84154297343609530482%N); (65, 0, 10, 84154297343609530482%N); (70, 2, 0, 84154297343609530482%N); (70, 2, 1, 84154297343609530482%N); (70, 2, 2, 84154297343609530482%N); (70, 2, 3, 84154297343609530482%N); (70, 2, 4, 84154297343609530482%N); (70, 2, 5, 84154297343609530482%N); (70, 2, 6, 84154297343609530482%N); (70, 2, 7, 84154297343609530482%N); (70, 2, 8, 84154297343609530482%N); (70, 2, 9, 84154297343609530482%N); (70, 2, 12, 1143949011913394226%N); (79, 0, 10, 83010381938745796722%N); (80, 0, 10, 84154297343609530482%N); (81, 0, 10, 84154297343609530482%N); (82, 0, 10, 84154297343609530482%N); (83, 0, 10, 84154297343609530482%N); (88, 0, 0, 84154297343609530482%N); (89, 0, 0, 84154297343609530482%N); (90, 0, 0, 84154297343609530482%N); (91, 0, 0, 84154297343609530482%N); (92, 0, 0, 84154297343609530482%N); (93, 0, 0, 84154297343609530482%N); (94, 0, 0, 84154297343609530482%N); (95, 0, 0, 84154297343609530482%N); (96, 0, 0, 84154297343609530482%N); (103, 0, 0, 84154297343609530482%N); (104, 0, 0, 84154297343609530482%N); (105, 0, 0, 84154297343609530482%N); (106, 0, 0, 84154297343609530482%N)];
  [(33, 0, 0, 84154297343609530482%N); (53, 0, 0, 231728249933285943410%N); (54, 0, 0, 231728249933285943410%N); (55, 0, 0, 268621738080705046642%N); (56, 0, 0, 268621738080705046642%N); (57, 0, 0, 268621738080705046642%N); (58, 0, 0, 268621738080705046642%N); (59, 0, 0, 268621738080705046642%N); (64, 0, 8, 84154297343609530482%N); (65, 0, 8, 84154297343609530482%N); (66, 0, 8, 83145491027078539378%N); (67, 0, 8, 83145491027078539378%N); (68, 0, 8, 84154297343609530482%N); (69, 0, 8, 84154297343609530482%N); (70, 0, 8, 84154297343609530482%N); (71, 2, 0, 83037404636021647474%N); (71, 2, 1, 83037404636021647474%N); (71, 2, 2, 83037404636021647474%N); (71, 2, 3, 83037404636021647474%N); (71, 2, 4, 83037404636021647474%N); (71, 2, 5, 83037404636021647474%N); (71, 2, 6, 83037404636021647474%N); (71, 2, 7, 83037404636021647474%N); (71, 2, 12, 27056304325511218%N); (79, 0, 8, 83010381938745796722%N); (80, 0, 8, 84154297343609530482%N); (81, 0, 8, 84154297343609530482%N); (82, 0, 8, 84154297343609530482%N); (83, 0, 8, 84154297343609530482%N); (88, 0, 0, 84154297343609530482%N); (89, 0, 0, 84154297343609530482%N); (90, 0, 0, 84154297343609530482%N); (91, 0, 0, 84154297343609530482%N); (92, 0, 0, 84154297343609530482%N); (93, 0, 0, 84154297343609530482%N); (94, 0, 0, 84154297343609530482%N); (95, 0, 0, 84154297343609530482%N); (96, 0, 0, 84154297343609530482%N); (103, 0, 0, 84154297343609530482%N); (104, 0, 0, 84154297343609530482%N); (105, 0, 0, 84154297343609530482%N); (106, 0, 0, 84154297343609530482%N)];
  [(33, 0, 0, 84154297343609530482%N); (53, 0, 0, 231728249933285943410%N); (54, 0, 0, 231728249933285943410%N); (55, 0, 0, 268621738080705046642%N); (56, 0, 0, 268621738080705046642%N); (57, 0, 0, 268621738080705046642%N); (58, 0, 0, 268621738080705046642%N); (59, 0, 0, 268621738080705046642%N); (64, 0, 8, 84154297343609530482%N); (65, 0, 8, 84154297343609530482%N); (66, 0, 8, 83145491027078539378%N); (67, 0, 8, 83145491027078539378%N); (68, 0, 8, 84154297343609530482%N); (69, 0, 8, 84154297343609530482%N); (70, 0, 8, 84154297343609530482%N); (72, 2, 0, 83037404636021647474%N); (72, 2, 1, 83037404636021647474%N); (72, 2, 2, 83037404636021647474%N); (72, 2, 3, 83037404636021647474%N); (72, 2, 4, 83037404636021647474%N); (72, 2, 5, 83037404636021647474%N); (72, 2, 6, 83037404636021647474%N); (72, 2, 7, 83037404636021647474%N); (72, 2, 12, 27056304325511218%N); (79, 0, 8, 83010381938745796722%N); (80, 0, 8, 84154297343609530482%N); (81, 0, 8, 84154297343609530482%N); (82, 0, 8, 84154297343609530482%N); (83, 0, 8, 84154297343609530482%N); (88, 0, 0, 84154297343609530482%N); (89, 0, 0, 84154297343609530482%N); (90, 0, 0, 84154297343609530482%N); (91, 0, 0, 84154297343609530482%N); (92, 0, 0, 84154297343609530482%N); (93, 0, 0, 84154297343609530482%N); (94, 0, 0, 84154297343609530482%N); (95, 0, 0, 84154297343609530482%N); (96, 0, 0, 84154297343609530482%N); (103, 0, 0, 84154297343609530482%N); (104, 0, 0, 84154297343609530482%N); (105, 0, 0, 84154297343609530482%N); (106, 0, 0, 84154297343609530482%N)];
  [(33, 0, 0, 84154297343609530482%N); (53, 0, 0, 231728249933285943410%N); (54, 0, 0, 231728249933285943410%N); (55, 0, 0, 268621738080705046642%N); (56, 0, 0, 268621738080705046642%N); (57, 0, 0, 268621738080705046642%N); (58, 0, 0, 268621738080705046642%N); (59, 0, 0, 268621738080705046642%N); (64, 0, 7, 84154297343609530482%N); (65, 0, 7, 84154297343609530482%N); (66, 0, 7, 83145491027078539378%N); (67, 0, 7, 83145491027078539378%N); (68, 0, 7, 84154297343609530482%N); (69, 0, 7, 84154297343609530482%N); (70, 0, 7, 84154297343609530482%N); (71, 0, 7, 83037404636021647474%N); (72, 0, 7, 83037404636021647474%N); (73, 2, 0, 83010383038257424498%N); (73, 2, 1, 83010383038257424498%N); (73, 2, 2, 83010383038257424498%N); (73, 2, 3, 83010383038257424498%N); (73, 2, 4, 83010383038257424498%N); (73, 2, 5, 83010383038257424498%N); (73, 2, 6, 83010383038257424498%N); (73, 2, 12, 34706561288242%N); (79, 0, 7, 83010381938745796722%N); (80, 0, 7, 84154297343609530482%N); (81, 0, 7, 84154297343609530482%N); (82, 0, 7, 84154297343609530482%N); (83, 0, 7, 84154297343609530482%N); (88, 0, 0, 84154297343609530482%N); (89, 0, 0, 84154297343609530482%N); (90, 0, 0, 84154297343609530482%N); (91, 0, 0, 84154297343609530482%N); (92, 0, 0, 84154297343609530482%N); (93, 0, 0, 84154297343609530482%N); (94, 0, 0, 84154297343609530482%N); (95, 0, 0, 84154297343609530482%N); (96, 0, 0, 84154297343609530482%N); (103, 0, 0, 84154297343609530482%N); (104, 0, 0, 84154297343609530482%N); (105, 0, 0, 84154297343609530482%N); (106, 0, 0, 84154297343609530482%N)];
  [(33, 0, 0, 84154297343609530482%N); (53, 0, 0, 231728249933285943410%N); (54, 0, 0, 231728249933285943410%N); (55, 0, 0, 268621738080705046642%N); (56, 0, 0, 268621738080705046642%N); (57, 0, 0, 268621738080705046642%N); (58, 0, 0, 268621738080705046642%N); (59, 0, 0, 268621738080705046642%N); (64, 0, 1, 84154297343609530482%N); (65, 0, 1, 84154297343609530482%N); (66, 0, 1, 83145491027078539378%N); (67, 0, 1, 83145491027078539378%N); (68, 0, 1, 84154297343609530482%N); (69, 0, 1, 84154297343609530482%N); (70, 0, 1, 84154297343609530482%N); (71, 0, 1, 83037404636021647474%N); (72, 0, 1, 83037404636021647474%N); (73, 0, 1, 83010383038257424498%N); (74, 2, 0, 83010357199734171762%N); (74, 2, 12, 8868038035506%N); (75, 0, 1, 83010374791920216178%N); (76, 0, 1, 83010375341676030066%N); (77, 0, 1, 83010377540699285618%N); (78, 0, 1, 83010381938745796722%N); (79, 0, 1, 83010381938745796722%N); (80, 0, 1, 84154297343609530482%N); (81, 0, 1, 84154297343609530482%N); (82, 0, 1, 84154297343609530482%N); (83, 0, 1, 84154297343609530482%N); (88, 0, 0, 84154297343609530482%N); (89, 0, 0, 84154297343609530482%N); (90, 0, 0, 84154297343609530482%N); (91, 0, 0, 84154297343609530482%N); (92, 0, 0, 84154297343609530482%N); (93, 0, 0, 84154297343609530482%N); (94, 0, 0, 84154297343609530482%N); (95, 0, 0, 84154297343609530482%N); (96, 0, 0, 84154297343609530482%N); (103, 0, 0, 84154297343609530482%N); (104, 0, 0, 84154297343609530482%N); (105, 0, 0, 84154297343609530482%N); (106, 0, 0, 84154297343609530482%N)];
  [(33, 0, 0, 84154297343609530482%N); (53, 0, 0, 231728249933285943410%N); (54, 0, 0, 231728249933285943410%N); (55, 0, 0, 268621738080705046642%N); (56, 0, 0, 268621738080705046642%N); (57, 0, 0, 268621738080705046642%N); (58, 0, 0, 268621738080705046642%N); (59, 0, 0, 268621738080705046642%N); (64, 0, 2, 84154297343609530482%N); (65, 0, 2, 84154297343609530482%N); (66, 0, 2, 83145491027078539378%N); (67, 0, 2, 83145491027078539378%N); (68, 0, 2, 84154297343609530482%N); (69, 0, 2, 84154297343609530482%N); (70, 0, 2, 84154297343609530482%N); (71, 0, 2, 83037404636021647474%N); (72, 0, 2, 83037404636021647474%N); (73, 0, 2, 83010383038257424498%N); (75, 2, 0, 83010374791920216178%N); (75, 2, 1, 83010374791920216178%N); (75, 2, 12, 26460224079922%N); (76, 0, 2, 83010375341676030066%N); (77, 0, 2, 83010377540699285618%N); (78, 0, 2, 83010381938745796722%N); (79, 0, 2, 83010381938745796722%N); (80, 0, 2, 84154297343609530482%N); (81, 0, 2, 84154297343609530482%N); (82, 0, 2, 84154297343609530482%N); (83, 0, 2, 84154297343609530482%N); (88, 0, 0, 84154297343609530482%N); (89, 0, 0, 84154297343609530482%N); (90, 0, 0, 84154297343609530482%N); (91, 0, 0, 84154297343609530482%N); (92, 0, 0, 84154297343609530482%N); (93, 0, 0, 84154297343609530482%N); (94, 0, 0, 84154297343609530482%N); (95, 0, 0, 84154297343609530482%N); (96, 0, 0, 84154297343609530482%N); (103, 0, 0, 84154297343609530482%N); (104, 0, 0, 84154297343609530482%N); (105, 0, 0, 84154297343609530482%N); (106, 0, 0, 84154297343609530482%N)];
  [(33, 0, 0, 84154297343609530482%N); (53, 0, 0, 231728249933285943410%N); (54, 0, 0, 231728249933285943410%N); (55, 0, 0, 268621738080705046642%N); (56, 0, 0, 268621738080705046642%N); (57, 0, 0, 268621738080705046642%N); (58, 0, 0, 268621738080705046642%N); (59, 0, 0, 268621738080705046642%N); (64, 0, 3, 84154297343609530482%N); (65, 0, 3, 84154297343609530482%N); (66, 0, 3, 83145491027078539378%N); (67, 0, 3, 83145491027078539378%N); (68, 0, 3, 84154297343609530482%N); (69, 0, 3, 84154297343609530482%N); (70, 0, 3, 84154297343609530482%N); (71, 0, 3, 83037404636021647474%N); (72, 0, 3, 83037404636021647474%N); (73, 0, 3, 83010383038257424498%N); (76, 2, 0, 83010375341676030066%N); (76, 2, 1, 83010375341676030066%N); (76, 2, 2, 83010375341676030066%N); (76, 2, 12, 27009979893810%N); (77, 0, 3, 83010377540699285618%N); (78, 0, 3, 83010381938745796722%N); (79, 0, 3, 83010381938745796722%N); (80, 0, 3, 84154297343609530482%N); (81, 0, 3, 84154297343609530482%N); (82, 0, 3, 84154297343609530482%N); (83, 0, 3, 84154297343609530482%N); (88, 0, 0, 84154297343609530482%N); (89, 0, 0, 84154297343609530482%N); (90, 0, 0, 84154297343609530482%N); (91, 0, 0, 84154297343609530482%N); (92, 0, 0, 84154297343609530482%N); (93, 0, 0, 84154297343609530482%N); (94, 0, 0, 84154297343609530482%N); (95, 0, 0, 84154297343609530482%N); (96, 0, 0, 84154297343609530482%N); (103, 0, 0, 84154297343609530482%N); (104, 0, 0, 84154297343609530482%N); (105, 0, 0, 84154297343609530482%N); (106, 0, 0, 84154297343609530482%N)];
  [(33, 0, 0, 84154297343609530482%N); (53, 0, 0, 231728249933285943410%N); (54, 0, 0, 231728249933285943410%N); (55, 0, 0, 268621738080705046642%N); (56, 0, 0, 268621738080705046642%N); (57, 0, 0, 268621738080705046642%N); (58, 0, 0, 268621738080705046642%N); (59, 0, 0, 268621738080705046642%N); (64, 0, 4, 84154297343609530482%N); (65, 0, 4, 84154297343609530482%N); (66, 0, 4, 83145491027078539378%N); (67, 0, 4, 83145491027078539378%N); (68, 0, 4, 84154297343609530482%N); (69, 0, 4, 84154297343609530482%N); (70, 0, 4, 84154297343609530482%N); (71, 0, 4, 83037404636021647474%N); (72, 0, 4, 83037404636021647474%N); (73, 0, 4, 83010383038257424498%N); (77, 2, 0, 83010377540699285618%N); (77, 2, 1, 83010377540699285618%N); (77, 2, 2, 83010377540699285618%N); (77, 2, 3, 83010377540699285618%N); (77, 2, 12, 29209003149362%N); (78, 0, 4, 83010381938745796722%N); (79, 0, 4, 83010381938745796722%N); (80, 0, 4, 84154297343609530482%N); (81, 0, 4, 84154297343609530482%N); (82, 0, 4, 84154297343609530482%N); (83, 0, 4, 84154297343609530482%N); (88, 0, 0, 84154297343609530482%N); (89, 0, 0, 84154297343609530482%N); (90, 0, 0, 84154297343609530482%N); (91, 0, 0, 84154297343609530482%N); (92, 0, 0, 84154297343609530482%N); (93, 0, 0, 84154297343609530482%N); (94, 0, 0, 84154297343609530482%N); (95, 0, 0, 84154297343609530482%N); (96, 0, 0, 84154297343609530482%N); (103, 0, 0, 84154297343609530482%N); (104, 0, 0, 84154297343609530482%N); (105, 0, 0, 84154297343609530482%N); (106, 0, 0, 84154297343609530482%N)];
  [(33, 0, 0, 84154297343609530482%N); (53, 0, 0, 231728249933285943410%N); (54, 0, 0, 231728249933285943410%N); (55, 0, 0, 268621738080705046642%N); (56, 0, 0, 268621738080705046642%N); (57, 0, 0, 268621738080705046642%N); (58, 0, 0, 268621738080705046642%N); (59, 0, 0, 268621738080705046642%N); (64, 0, 5, 84154297343609530482%N); (65, 0, 5, 84154297343609530482%N); (66, 0, 5, 83145491027078539378%N); (67, 0, 5, 83145491027078539378%N); (68, 0, 5, 84154297343609530482%N); (69, 0, 5, 84154297343609530482%N); (70, 0, 5, 84154297343609530482%N); (71, 0, 5, 83037404636021647474%N); (72, 0, 5, 83037404636021647474%N); (73, 0, 5, 83010383038257424498%N); (78, 2, 0, 83010381938745796722%N); (78, 2, 1, 83010381938745796722%N); (78, 2, 2, 83010381938745796722%N); (78, 2, 3, 83010381938745796722%N); (78, 2, 4, 83010381938745796722%N); (78, 2, 12, 33607049660466%N); (79, 0, 5, 83010381938745796722%N); (80, 0, 5, 84154297343609530482%N); (81, 0, 5, 84154297343609530482%N); (82, 0, 5, 84154297343609530482%N); (83, 0, 5, 84154297343609530482%N); (88, 0, 0, 84154297343609530482%N); (89, 0, 0, 84154297343609530482%N); (90, 0, 0, 84154297343609530482%N); (91, 0, 0, 84154297343609530482%N); (92, 0, 0, 84154297343609530482%N); (93, 0, 0, 84154297343609530482%N); (94, 0, 0, 84154297343609530482%N); (95, 0, 0, 84154297343609530482%N); (96, 0, 0, 84154297343609530482%N); (103, 0, 0, 84154297343609530482%N); (104, 0, 0, 84154297343609530482%N); (105, 0, 0, 84154297343609530482%N); (106, 0, 0, 84154297343609530482%N)];
  [(51, 2, 0, 71945013298%N)];
  [(66, 1, 0, 9358514732237178994%N); (67, 1, 0, 9358514732237178994%N); (68, 1, 0, 10367321048768170098%N); (69, 1, 0, 10367321048768170098%N); (70, 1, 0, 10367321048768170098%N); (71, 1, 0, 9250428341180287090%N); (72, 1, 0, 9250428341180287090%N); (73, 1, 0, 9223406743416064114%N); (74, 1, 0, 9223380904892811378%N); (75, 1, 0, 9223398497078855794%N); (76, 1, 0, 9223399046834669682%N); (77, 1, 0, 9223401245857925234%N); (78, 1, 0, 9223405643904436338%N); (85, 1, 0, 9223372108799789170%N)];
  [(54, 1, 0, 231728249933285943410%N); (83, 1, 0, 84154297343609530482%N); (83, 1, 1, 84154297343609530482%N); (83, 1, 2, 84154297343609530482%N); (83, 1, 3, 84154297343609530482%N); (83, 1, 4, 84154297343609530482%N); (83, 1, 5, 84154297343609530482%N); (83, 1, 6, 84154297343609530482%N); (83, 1, 7, 84154297343609530482%N); (83, 1, 8, 84154297343609530482%N); (83, 1, 9, 84154297343609530482%N); (83, 1, 10, 84154297343609530482%N); (83, 1, 11, 84154297343609530482%N); (112, 0, 0, 2251799813685504%N)];
  [(52, 2, 0, 71945013298%N)];
  [(33, 0, 0, 74930925234806587392%N); (53, 0, 0, 222504877824483000320%N); (54, 0, 0, 222504877824483000320%N); (55, 0, 0, 259398365971902103552%N); (56, 0, 0, 259398365971902103552%N); (57, 0, 0, 259398365971902103552%N); (57, 2, 0, 268621738080705046642%N); (58, 0, 0, 259398365971902103552%N); (59, 0, 0, 259398365971902103552%N); (64, 0, 0, 74930925234806587392%N); (65, 0, 0, 74930925234806587392%N); (66, 0, 0, 73922118918275596288%N); (67, 0, 0, 73922118918275596288%N); (68, 0, 0, 74930925234806587392%N); (69, 0, 0, 74930925234806587392%N); (70, 0, 0, 74930925234806587392%N); (71, 0, 0, 73814032527218704384%N); (72, 0, 0, 73814032527218704384%N); (73, 0, 0, 73787010929454481408%N); (74, 0, 0, 73786985090931228672%N); (75, 0, 0, 73787002683117273088%N); (76, 0, 0, 73787003232873086976%N); (77, 0, 0, 73787005431896342528%N); (78, 0, 0, 73787009829942853632%N); (79, 0, 0, 73787009829942853632%N); (80, 0, 0, 74930925234806587392%N); (81, 0, 0, 74930925234806587392%N); (82, 0, 0, 74930925234806587392%N); (83, 0, 0, 74930925234806587392%N); (88, 0, 0, 74930925234806587392%N); (89, 0, 0, 74930925234806587392%N); (90, 0, 0, 74930925234806587392%N); (91, 0, 0, 74930925234806587392%N); (92, 0, 0, 74930925234806587392%N); (93, 0, 0, 74930925234806587392%N); (94, 0, 0, 74930925234806587392%N); (95, 0, 0, 74930925234806587392%N); (96, 0, 0, 74930925234806587392%N); (103, 0, 0, 74930925234806587392%N); (104, 0, 0, 74930925234806587392%N); (105, 0, 0, 74930925234806587392%N); (106, 0, 0, 74930925234806587392%N)];
  [(65, 2, 0, 84154297343609530482%N); (65, 2, 1, 84154297343609530482%N); (65, 2, 2, 84154297343609530482%N); (65, 2, 3, 84154297343609530482%N); (65, 2, 4, 84154297343609530482%N); (65, 2, 5, 84154297343609530482%N); (65, 2, 6, 84154297343609530482%N); (65, 2, 7, 84154297343609530482%N); (65, 2, 8, 84154297343609530482%N); (65, 2, 9, 84154297343609530482%N); (65, 2, 10, 84154297343609530482%N); (65, 2, 11, 84154297343609530482%N); (65, 2, 12, 1143949011913394226%N); (87, 1, 0, 9223372036854775872%N); (111, 0, 0, 32394075490542944576%N)];
  [(86, 1, 0, 9223372036854775872%N)];
  [(66, 1, 6, 83145491027078539378%N); (67, 1, 6, 83145491027078539378%N); (68, 1, 6, 84154297343609530482%N); (69, 1, 6, 84154297343609530482%N); (70, 1, 6, 84154297343609530482%N); (71, 1, 6, 83037404636021647474%N); (72, 1, 6, 83037404636021647474%N); (73, 1, 6, 83010383038257424498%N); (79, 2, 0, 83010381938745796722%N); (79, 2, 1, 83010381938745796722%N); (79, 2, 2, 83010381938745796722%N); (79, 2, 3, 83010381938745796722%N); (79, 2, 4, 83010381938745796722%N); (79, 2, 5, 83010381938745796722%N); (79, 2, 6, 83010381938745796722%N); (79, 2, 7, 83010381938745796722%N); (79, 2, 8, 83010381938745796722%N); (79, 2, 9, 83010381938745796722%N); (79, 2, 10, 83010381938745796722%N); (79, 2, 11, 83010381938745796722%N); (79, 2, 12, 33607049660466%N)];
  [(81, 2, 0, 84154297343609530482%N); (81, 2, 1, 84154297343609530482%N); (81, 2, 2, 84154297343609530482%N); (81, 2, 3, 84154297343609530482%N); (81, 2, 4, 84154297343609530482%N); (81, 2, 5, 84154297343609530482%N); (81, 2, 6, 84154297343609530482%N); (81, 2, 7, 84154297343609530482%N); (81, 2, 8, 84154297343609530482%N); (81, 2, 9, 84154297343609530482%N); (81, 2, 10, 84154297343609530482%N); (81, 2, 11, 84154297343609530482%N); (81, 2, 12, 1143949011913394226%N)];
  [(28, 2, 0, 71945013298%N); (66, 1, 0, 135142623437398016%N); (67, 1, 0, 135142623437398016%N); (68, 1, 0, 1143948939968389120%N); (69, 1, 0, 1143948939968389120%N); (70, 1, 0, 1143948939968389120%N); (71, 1, 0, 27056232380506112%N); (72, 1, 0, 27056232380506112%N); (73, 1, 0, 34634616283136%N); (74, 1, 0, 8796093030400%N); (75, 1, 0, 26388279074816%N); (76, 1, 0, 26938034888704%N); (77, 1, 0, 29137058144256%N); (78, 1, 0, 33535104655360%N)];
  [(35, 2, 0, 71945013298%N)];
  [(37, 2, 0, 71945013298%N); (66, 1, 0, 135142623438438400%N); (67, 1, 0, 135142623438438400%N); (68, 1, 0, 1143948939969429504%N); (69, 1, 0, 1143948939969429504%N); (70, 1, 0, 1143948939969429504%N); (71, 1, 0, 27056232381546496%N); (72, 1, 0, 27056232381546496%N); (73, 1, 0, 34634617323520%N); (74, 1, 0, 8796094070784%N); (75, 1, 0, 26388280115200%N); (76, 1, 0, 26938035929088%N); (77, 1, 0, 29137059184640%N); (78, 1, 0, 33535105695744%N)];
  [(39, 2, 0, 71945013298%N); (66, 1, 0, 135142623439486976%N); (67, 1, 0, 135142623439486976%N); (68, 1, 0, 1143948939970478080%N); (69, 1, 0, 1143948939970478080%N); (70, 1, 0, 1143948939970478080%N); (71, 1, 0, 27056232382595072%N); (72, 1, 0, 27056232382595072%N); (73, 1, 0, 34634618372096%N); (74, 1, 0, 8796095119360%N); (75, 1, 0, 26388281163776%N); (76, 1, 0, 26938036977664%N); (77, 1, 0, 29137060233216%N); (78, 1, 0, 33535106744320%N)];
  [(19, 1, 0, 1073741872%N); (22, 0, 0, 23170703867959710000%N); (23, 0, 0, 23170703867959710000%N); (63, 2, 0, 71945013298%N); (109, 0, 0, 23170703867959710000%N); (110, 0, 0, 23170703867959710000%N)];
  [(12, 2, 0, 23170703901245708210%N); (107, 0, 0, 281474976710752%N); (108, 0, 0, 281474976710752%N)];
  [(14, 2, 0, 23170703901245708210%N)];
  [(15, 2, 0, 23170703901245708210%N)];
  [(33, 0, 0, 10367320976823156800%N); (53, 0, 0, 157941273566499569728%N); (54, 0, 0, 157941273566499569728%N); (55, 0, 0, 194834761713918672960%N); (56, 0, 0, 194834761713918672960%N); (56, 2, 0, 268621738080705046642%N); (57, 0, 0, 194834761713918672960%N); (58, 0, 0, 194834761713918672960%N); (59, 0, 0, 194834761713918672960%N); (64, 0, 0, 10367320976823156800%N); (65, 0, 0, 10367320976823156800%N); (66, 0, 0, 9358514660292165696%N); (67, 0, 0, 9358514660292165696%N); (68, 0, 0, 10367320976823156800%N); (69, 0, 0, 10367320976823156800%N); (70, 0, 0, 10367320976823156800%N); (71, 0, 0, 9250428269235273792%N); (72, 0, 0, 9250428269235273792%N); (73, 0, 0, 9223406671471050816%N); (74, 0, 0, 9223380832947798080%N); (75, 0, 0, 9223398425133842496%N); (76, 0, 0, 9223398974889656384%N); (77, 0, 0, 9223401173912911936%N); (78, 0, 0, 9223405571959423040%N); (79, 0, 0, 9223405571959423040%N); (80, 0, 0, 10367320976823156800%N); (81, 0, 0, 10367320976823156800%N); (82, 0, 0, 10367320976823156800%N); (83, 0, 0, 10367320976823156800%N); (84, 0, 0, 9223372036854775872%N); (85, 0, 0, 9223372036854775872%N); (86, 0, 0, 9223372036854775872%N); (87, 0, 0, 9223372036854775872%N); (88, 0, 0, 10367320976823156800%N); (89, 0, 0, 10367320976823156800%N); (90, 0, 0, 10367320976823156800%N); (91, 0, 0, 10367320976823156800%N); (92, 0, 0, 10367320976823156800%N); (93, 0, 0, 10367320976823156800%N); (94, 0, 0, 10367320976823156800%N); (95, 0, 0, 10367320976823156800%N); (96, 0, 0, 10367320976823156800%N); (103, 0, 0, 10367320976823156800%N); (104, 0, 0, 10367320976823156800%N); (105, 0, 0, 10367320976823156800%N); (106, 0, 0, 10367320976823156800%N)];
  [(58, 2, 0, 268621738080705046642%N)];
  [(33, 0, 0, 10367320976823156736%N); (53, 0, 0, 157941273566499569664%N); (54, 0, 0, 157941273566499569664%N); (55, 0, 0, 194834761713918672896%N); (56, 0, 0, 194834761713918672896%N); (57, 0, 0, 194834761713918672896%N); (58, 0, 0, 194834761713918672896%N); (59, 0, 0, 194834761713918672896%N); (59, 2, 0, 268621738080705046642%N); (64, 0, 0, 10367320976823156736%N); (65, 0, 0, 10367320976823156736%N); (66, 0, 0, 9358514660292165632%N); (67, 0, 0, 9358514660292165632%N); (68, 0, 0, 10367320976823156736%N); (69, 0, 0, 10367320976823156736%N); (70, 0, 0, 10367320976823156736%N); (71, 0, 0, 9250428269235273728%N); (72, 0, 0, 9250428269235273728%N); (73, 0, 0, 9223406671471050752%N); (74, 0, 0, 9223380832947798016%N); (75, 0, 0, 9223398425133842432%N); (76, 0, 0, 9223398974889656320%N); (77, 0, 0, 9223401173912911872%N); (78, 0, 0, 9223405571959422976%N); (79, 0, 0, 9223405571959422976%N); (80, 0, 0, 10367320976823156736%N); (81, 0, 0, 10367320976823156736%N); (82, 0, 0, 10367320976823156736%N); (83, 0, 0, 10367320976823156736%N); (88, 0, 0, 10367320976823156736%N); (89, 0, 0, 10367320976823156736%N); (90, 0, 0, 10367320976823156736%N); (91, 0, 0, 10367320976823156736%N); (92, 0, 0, 10367320976823156736%N); (93, 0, 0, 10367320976823156736%N); (94, 0, 0, 10367320976823156736%N); (95, 0, 0, 10367320976823156736%N); (96, 0, 0, 10367320976823156736%N); (103, 0, 0, 10367320976823156736%N); (104, 0, 0, 10367320976823156736%N); (105, 0, 0, 10367320976823156736%N); (106, 0, 0, 10367320976823156736%N)];
  [(60, 1, 0, 268621738080705046642%N)];
  [(61, 1, 0, 268621738080705046642%N)];
  [(90, 2, 0, 84154297343609530482%N)];
  [(91, 2, 0, 84154297343609530482%N)];
  [(103, 2, 0, 84154297343609530482%N); (104, 2, 0, 84154297343609530482%N)];
  [(33, 0, 0, 10367320976823156800%N); (53, 0, 0, 157941273566499569728%N); (54, 0, 0, 157941273566499569728%N); (55, 0, 0, 194834761713918672960%N); (56, 0, 0, 194834761713918672960%N); (57, 0, 0, 194834761713918672960%N); (58, 0, 0, 194834761713918672960%N); (59, 0, 0, 194834761713918672960%N); (64, 0, 0, 10367320976823156800%N); (65, 0, 0, 10367320976823156800%N); (66, 0, 0, 9358514660292165696%N); (67, 0, 0, 9358514660292165696%N); (68, 0, 0, 10367320976823156800%N); (69, 0, 0, 10367320976823156800%N); (70, 0, 0, 10367320976823156800%N); (71, 0, 0, 9250428269235273792%N); (72, 0, 0, 9250428269235273792%N); (73, 0, 0, 9223406671471050816%N); (74, 0, 0, 9223380832947798080%N); (75, 0, 0, 9223398425133842496%N); (76, 0, 0, 9223398974889656384%N); (77, 0, 0, 9223401173912911936%N); (78, 0, 0, 9223405571959423040%N); (79, 0, 0, 9223405571959423040%N); (80, 0, 0, 10367320976823156800%N); (81, 0, 0, 10367320976823156800%N); (82, 0, 0, 10367320976823156800%N); (83, 0, 0, 10367320976823156800%N); (84, 0, 0, 9223372036854775872%N); (85, 0, 0, 9223372036854775872%N); (86, 0, 0, 9223372036854775872%N); (87, 0, 0, 9223372036854775872%N); (88, 0, 0, 10367320976823156800%N); (89, 0, 0, 10367320976823156800%N); (90, 0, 0, 10367320976823156800%N); (91, 0, 0, 10367320976823156800%N); (92, 0, 0, 10367320976823156800%N); (93, 0, 0, 10367320976823156800%N); (94, 0, 0, 10367320976823156800%N); (95, 0, 0, 10367320976823156800%N); (96, 0, 0, 10367320976823156800%N); (103, 0, 0, 10367320976823156800%N); (104, 0, 0, 10367320976823156800%N); (105, 0, 0, 10367320976823156800%N); (105, 2, 0, 84154297343609530482%N); (106, 0, 0, 10367320976823156800%N)];
  [(33, 0, 0, 1143948939968380992%N); (33, 2, 0, 84154297343609530482%N); (53, 0, 0, 148717901529644793920%N); (54, 0, 0, 148717901529644793920%N); (55, 0, 0, 185611389677063897152%N); (56, 0, 0, 185611389677063897152%N); (57, 0, 0, 185611389677063897152%N); (58, 0, 0, 185611389677063897152%N); (59, 0, 0, 185611389677063897152%N); (64, 0, 0, 1143948939968380992%N); (65, 0, 0, 1143948939968380992%N); (66, 0, 0, 135142623437389888%N); (67, 0, 0, 135142623437389888%N); (68, 0, 0, 1143948939968380992%N); (69, 0, 0, 1143948939968380992%N); (70, 0, 0, 1143948939968380992%N); (71, 0, 0, 27056232380497984%N); (72, 0, 0, 27056232380497984%N); (73, 0, 0, 34634616275008%N); (74, 0, 0, 8796093022272%N); (75, 0, 0, 26388279066688%N); (76, 0, 0, 26938034880576%N); (77, 0, 0, 29137058136128%N); (78, 0, 0, 33535104647232%N); (79, 0, 0, 33535104647232%N); (80, 0, 0, 1143948939968380992%N); (81, 0, 0, 1143948939968380992%N); (82, 0, 0, 1143948939968380992%N); (83, 0, 0, 1143948939968380992%N); (88, 0, 0, 1143948939968380992%N); (89, 0, 0, 1143948939968380992%N); (90, 0, 0, 1143948939968380992%N); (91, 0, 0, 1143948939968380992%N); (92, 0, 0, 1143948939968380992%N); (93, 0, 0, 1143948939968380992%N); (94, 0, 0, 1143948939968380992%N); (95, 0, 0, 1143948939968380992%N); (96, 0, 0, 1143948939968380992%N); (103, 0, 0, 1143948939968380992%N); (104, 0, 0, 1143948939968380992%N); (105, 0, 0, 1143948939968380992%N); (106, 0, 0, 1143948939968380992%N)];
  [(19, 3, 0, 71945013298%N)];
  [(21, 1, 0, 71945013298%N)];
  [(44, 3, 0, 71945013298%N); (66, 1, 0, 135142695382403122%N); (67, 1, 0, 135142695382403122%N); (68, 1, 0, 1143949011913394226%N); (69, 1, 0, 1143949011913394226%N); (70, 1, 0, 1143949011913394226%N); (71, 1, 0, 27056304325511218%N); (72, 1, 0, 27056304325511218%N); (73, 1, 0, 34706561288242%N); (74, 1, 0, 8868038035506%N); (75, 1, 0, 26460224079922%N); (76, 1, 0, 27009979893810%N); (77, 1, 0, 29209003149362%N); (78, 1, 0, 33607049660466%N)];
  [(54, 3, 0, 231728249933285943410%N); (57, 1, 0, 268621738080705046642%N)];
  [(66, 3, 0, 83145491027078539378%N); (66, 3, 1, 83145491027078539378%N); (66, 3, 2, 83145491027078539378%N); (66, 3, 3, 83145491027078539378%N); (66, 3, 4, 83145491027078539378%N); (66, 3, 5, 83145491027078539378%N); (66, 3, 6, 83145491027078539378%N); (66, 3, 7, 83145491027078539378%N); (66, 3, 8, 83145491027078539378%N); (66, 3, 12, 135142695382403122%N); (68, 1, 9, 84154297343609530482%N); (69, 1, 9, 84154297343609530482%N); (70, 1, 9, 84154297343609530482%N)];
  [(67, 3, 0, 83145491027078539378%N); (67, 3, 1, 83145491027078539378%N); (67, 3, 2, 83145491027078539378%N); (67, 3, 3, 83145491027078539378%N); (67, 3, 4, 83145491027078539378%N); (67, 3, 5, 83145491027078539378%N); (67, 3, 6, 83145491027078539378%N); (67, 3, 7, 83145491027078539378%N); (67, 3, 8, 83145491027078539378%N); (67, 3, 12, 135142695382403122%N); (68, 1, 9, 84154297343609530482%N); (69, 1, 9, 84154297343609530482%N); (70, 1, 9, 84154297343609530482%N)];
  [(68, 3, 0, 84154297343609530482%N); (68, 3, 1, 84154297343609530482%N); (68, 3, 2, 84154297343609530482%N); (68, 3, 3, 84154297343609530482%N); (68, 3, 4, 84154297343609530482%N); (68, 3, 5, 84154297343609530482%N); (68, 3, 6, 84154297343609530482%N); (68, 3, 7, 84154297343609530482%N); (68, 3, 8, 84154297343609530482%N); (68, 3, 9, 84154297343609530482%N); (68, 3, 12, 1143949011913394226%N)];
  [(69, 3, 0, 84154297343609530482%N); (69, 3, 1, 84154297343609530482%N); (69, 3, 2, 84154297343609530482%N); (69, 3, 3, 84154297343609530482%N); (69, 3, 4, 84154297343609530482%N); (69, 3, 5, 84154297343609530482%N); (69, 3, 6, 84154297343609530482%N); (69, 3, 7, 84154297343609530482%N); (69, 3, 8, 84154297343609530482%N); (69, 3, 9, 84154297343609530482%N); (69, 3, 12, 1143949011913394226%N)];
  [(70, 3, 0, 84154297343609530482%N); (70, 3, 1, 84154297343609530482%N); (70, 3, 2, 84154297343609530482%N); (70, 3, 3, 84154297343609530482%N); (70, 3, 4, 84154297343609530482%N); (70, 3, 5, 84154297343609530482%N); (70, 3, 6, 84154297343609530482%N); (70, 3, 7, 84154297343609530482%N); (70, 3, 8, 84154297343609530482%N); (70, 3, 9, 84154297343609530482%N); (70, 3, 12, 1143949011913394226%N)];
  [(66, 1, 8, 83145491027078539378%N); (67, 1, 8, 83145491027078539378%N); (68, 1, 8, 84154297343609530482%N); (69, 1, 8, 84154297343609530482%N); (70, 1, 8, 84154297343609530482%N); (71, 3, 0, 83037404636021647474%N); (71, 3, 1, 83037404636021647474%N); (71, 3, 2, 83037404636021647474%N); (71, 3, 3, 83037404636021647474%N); (71, 3, 4, 83037404636021647474%N); (71, 3, 5, 83037404636021647474%N); (71, 3, 6, 83037404636021647474%N); (71, 3, 7, 83037404636021647474%N); (71, 3, 12, 27056304325511218%N)];
  [(66, 1, 8, 83145491027078539378%N); (67, 1, 8, 83145491027078539378%N); (68, 1, 8, 84154297343609530482%N); (69, 1, 8, 84154297343609530482%N); (70, 1, 8, 84154297343609530482%N); (72, 3, 0, 83037404636021647474%N); (72, 3, 1, 83037404636021647474%N); (72, 3, 2, 83037404636021647474%N); (72, 3, 3, 83037404636021647474%N); (72, 3, 4, 83037404636021647474%N); (72, 3, 5, 83037404636021647474%N); (72, 3, 6, 83037404636021647474%N); (72, 3, 7, 83037404636021647474%N); (72, 3, 12, 27056304325511218%N)];
  [(66, 1, 7, 83145491027078539378%N); (67, 1, 7, 83145491027078539378%N); (68, 1, 7, 84154297343609530482%N); (69, 1, 7, 84154297343609530482%N); (70, 1, 7, 84154297343609530482%N); (71, 1, 7, 83037404636021647474%N); (72, 1, 7, 83037404636021647474%N); (73, 3, 0, 83010383038257424498%N); (73, 3, 1, 83010383038257424498%N); (73, 3, 2, 83010383038257424498%N); (73, 3, 3, 83010383038257424498%N); (73, 3, 4, 83010383038257424498%N); (73, 3, 5, 83010383038257424498%N); (73, 3, 6, 83010383038257424498%N); (73, 3, 12, 34706561288242%N)];
  [(66, 1, 1, 83145491027078539378%N); (67, 1, 1, 83145491027078539378%N); (68, 1, 1, 84154297343609530482%N); (69, 1, 1, 84154297343609530482%N); (70, 1, 1, 84154297343609530482%N); (71, 1, 1, 83037404636021647474%N); (72, 1, 1, 83037404636021647474%N); (73, 1, 1, 83010383038257424498%N); (74, 3, 0, 83010357199734171762%N); (74, 3, 12, 8868038035506%N); (75, 1, 1, 83010374791920216178%N); (76, 1, 1, 83010375341676030066%N); (77, 1, 1, 83010377540699285618%N); (78, 1, 1, 83010381938745796722%N)];
  [(66, 1, 2, 83145491027078539378%N); (67, 1, 2, 83145491027078539378%N); (68, 1, 2, 84154297343609530482%N); (69, 1, 2, 84154297343609530482%N); (70, 1, 2, 84154297343609530482%N); (71, 1, 2, 83037404636021647474%N); (72, 1, 2, 83037404636021647474%N); (73, 1, 2, 83010383038257424498%N); (75, 3, 0, 83010374791920216178%N); (75, 3, 1, 83010374791920216178%N); (75, 3, 12, 26460224079922%N); (76, 1, 2, 83010375341676030066%N); (77, 1, 2, 83010377540699285618%N); (78, 1, 2, 83010381938745796722%N)];
  [(66, 1, 3, 83145491027078539378%N); (67, 1, 3, 83145491027078539378%N); (68, 1, 3, 84154297343609530482%N); (69, 1, 3, 84154297343609530482%N); (70, 1, 3, 84154297343609530482%N); (71, 1, 3, 83037404636021647474%N); (72, 1, 3, 83037404636021647474%N); (73, 1, 3, 83010383038257424498%N); (76, 3, 0, 83010375341676030066%N); (76, 3, 1, 83010375341676030066%N); (76, 3, 2, 83010375341676030066%N); (76, 3, 12, 27009979893810%N); (77, 1, 3, 83010377540699285618%N); (78, 1, 3, 83010381938745796722%N)];
  [(66, 1, 4, 83145491027078539378%N); (67, 1, 4, 83145491027078539378%N); (68, 1, 4, 84154297343609530482%N); (69, 1, 4, 84154297343609530482%N); (70, 1, 4, 84154297343609530482%N); (71, 1, 4, 83037404636021647474%N); (72, 1, 4, 83037404636021647474%N); (73, 1, 4, 83010383038257424498%N); (77, 3, 0, 83010377540699285618%N); (77, 3, 1, 83010377540699285618%N); (77, 3, 2, 83010377540699285618%N); (77, 3, 3, 83010377540699285618%N); (77, 3, 12, 29209003149362%N); (78, 1, 4, 83010381938745796722%N)];
  [(66, 1, 5, 83145491027078539378%N); (67, 1, 5, 83145491027078539378%N); (68, 1, 5, 84154297343609530482%N); (69, 1, 5, 84154297343609530482%N); (70, 1, 5, 84154297343609530482%N); (71, 1, 5, 83037404636021647474%N); (72, 1, 5, 83037404636021647474%N); (73, 1, 5, 83010383038257424498%N); (78, 3, 0, 83010381938745796722%N); (78, 3, 1, 83010381938745796722%N); (78, 3, 2, 83010381938745796722%N); (78, 3, 3, 83010381938745796722%N); (78, 3, 4, 83010381938745796722%N); (78, 3, 12, 33607049660466%N)];
  [(57, 3, 0, 268621738080705046642%N); (66, 1, 0, 73922118918275596288%N); (67, 1, 0, 73922118918275596288%N); (68, 1, 0, 74930925234806587392%N); (69, 1, 0, 74930925234806587392%N); (70, 1, 0, 74930925234806587392%N); (71, 1, 0, 73814032527218704384%N); (72, 1, 0, 73814032527218704384%N); (73, 1, 0, 73787010929454481408%N); (74, 1, 0, 73786985090931228672%N); (75, 1, 0, 73787002683117273088%N); (76, 1, 0, 73787003232873086976%N); (77, 1, 0, 73787005431896342528%N); (78, 1, 0, 73787009829942853632%N)];
  [(65, 3, 0, 84154297343609530482%N); (65, 3, 1, 84154297343609530482%N); (65, 3, 2, 84154297343609530482%N); (65, 3, 3, 84154297343609530482%N); (65, 3, 4, 84154297343609530482%N); (65, 3, 5, 84154297343609530482%N); (65, 3, 6, 84154297343609530482%N); (65, 3, 7, 84154297343609530482%N); (65, 3, 8, 84154297343609530482%N); (65, 3, 9, 84154297343609530482%N); (65, 3, 10, 84154297343609530482%N); (65, 3, 11, 84154297343609530482%N); (65, 3, 12, 1143949011913394226%N)];
  [(33, 0, 0, 10367320976823156800%N); (53, 0, 0, 157941273566499569728%N); (54, 0, 0, 157941273566499569728%N); (55, 0, 0, 194834761713918672960%N); (56, 0, 0, 194834761713918672960%N); (57, 0, 0, 194834761713918672960%N); (58, 0, 0, 194834761713918672960%N); (59, 0, 0, 194834761713918672960%N); (64, 0, 0, 10367320976823156800%N); (65, 0, 0, 10367320976823156800%N); (66, 0, 0, 9358514660292165696%N); (67, 0, 0, 9358514660292165696%N); (68, 0, 0, 10367320976823156800%N); (69, 0, 0, 10367320976823156800%N); (70, 0, 0, 10367320976823156800%N); (71, 0, 0, 9250428269235273792%N); (72, 0, 0, 9250428269235273792%N); (73, 0, 0, 9223406671471050816%N); (74, 0, 0, 9223380832947798080%N); (75, 0, 0, 9223398425133842496%N); (76, 0, 0, 9223398974889656384%N); (77, 0, 0, 9223401173912911936%N); (78, 0, 0, 9223405571959423040%N); (79, 0, 0, 9223405571959423040%N); (80, 0, 0, 10367320976823156800%N); (81, 0, 0, 10367320976823156800%N); (82, 0, 0, 10367320976823156800%N); (83, 0, 0, 10367320976823156800%N); (84, 0, 0, 9223372036854775872%N); (85, 0, 0, 9223372036854775872%N); (87, 2, 0, 9223372036854775872%N); (88, 0, 0, 10367320976823156800%N); (89, 0, 0, 10367320976823156800%N); (90, 0, 0, 10367320976823156800%N); (91, 0, 0, 10367320976823156800%N); (92, 0, 0, 10367320976823156800%N); (93, 0, 0, 10367320976823156800%N); (94, 0, 0, 10367320976823156800%N); (95, 0, 0, 10367320976823156800%N); (96, 0, 0, 10367320976823156800%N); (103, 0, 0, 10367320976823156800%N); (104, 0, 0, 10367320976823156800%N); (105, 0, 0, 10367320976823156800%N); (106, 0, 0, 10367320976823156800%N)];
  [(111, 1, 0, 32394075490576499008%N)];
  [(16, 0, 0, 114736%N); (17, 0, 0, 114736%N); (18, 0, 0, 114736%N); (19, 0, 0, 114736%N); (28, 0, 0, 114736%N); (28, 3, 0, 71945013298%N); (33, 0, 0, 1143948939968495664%N); (35, 0, 0, 114736%N); (37, 0, 0, 114736%N); (39, 0, 0, 114736%N); (44, 0, 0, 114736%N); (45, 0, 0, 114736%N); (46, 0, 0, 114736%N); (47, 0, 0, 114736%N); (48, 0, 0, 114736%N); (49, 0, 0, 114736%N); (50, 0, 0, 114736%N); (51, 0, 0, 114736%N); (52, 0, 0, 114736%N); (53, 0, 0, 148717901529644908592%N); (54, 0, 0, 148717901529644908592%N); (55, 0, 0, 185611389677064011824%N); (56, 0, 0, 185611389677064011824%N); (57, 0, 0, 185611389677064011824%N); (58, 0, 0, 185611389677064011824%N); (59, 0, 0, 185611389677064011824%N); (63, 0, 0, 114736%N); (64, 0, 12, 1143948939968495664%N); (65, 0, 12, 1143948939968495664%N); (66, 0, 12, 135142623437504560%N); (67, 0, 12, 135142623437504560%N); (68, 0, 12, 1143948939968495664%N); (69, 0, 12, 1143948939968495664%N); (70, 0, 12, 1143948939968495664%N); (71, 0, 12, 27056232380612656%N); (72, 0, 12, 27056232380612656%N); (73, 0, 12, 34634616389680%N); (74, 0, 12, 8796093136944%N); (75, 0, 12, 26388279181360%N); (76, 0, 12, 26938034995248%N); (77, 0, 12, 29137058250800%N); (78, 0, 12, 33535104761904%N); (79, 0, 12, 33535104761904%N); (80, 0, 12, 1143948939968495664%N); (81, 0, 12, 1143948939968495664%N); (82, 0, 12, 1143948939968495664%N); (83, 0, 12, 1143947840456867888%N); (88, 0, 0, 1143948939968495664%N); (89, 0, 0, 1143948939968495664%N); (90, 0, 0, 1143948939968495664%N); (91, 0, 0, 1143948939968495664%N); (92, 0, 0, 1143948939968495664%N); (93, 0, 0, 1143948939968495664%N); (94, 0, 0, 1143948939968495664%N); (95, 0, 0, 1143948939968495664%N); (96, 0, 0, 1143948939968495664%N); (103, 0, 0, 1143948939968495664%N); (104, 0, 0, 1143948939968495664%N); (105, 0, 0, 1143948939968495664%N); (106, 0, 0, 1143948939968495664%N)];
  [(35, 3, 0, 71945013298%N)];
  [(33, 0, 0, 1143948939970478080%N); (37, 3, 0, 71945013298%N); (53, 0, 0, 148717901529646891008%N); (54, 0, 0, 148717901529646891008%N); (55, 0, 0, 185611389677065994240%N); (56, 0, 0, 185611389677065994240%N); (57, 0, 0, 185611389677065994240%N); (58, 0, 0, 185611389677065994240%N); (59, 0, 0, 185611389677065994240%N); (64, 0, 0, 1143948939970478080%N); (65, 0, 0, 1143948939970478080%N); (66, 0, 0, 135142623439486976%N); (67, 0, 0, 135142623439486976%N); (68, 0, 0, 1143948939970478080%N); (69, 0, 0, 1143948939970478080%N); (70, 0, 0, 1143948939970478080%N); (71, 0, 0, 27056232382595072%N); (72, 0, 0, 27056232382595072%N); (73, 0, 0, 34634618372096%N); (74, 0, 0, 8796095119360%N); (75, 0, 0, 26388281163776%N); (76, 0, 0, 26938036977664%N); (77, 0, 0, 29137060233216%N); (78, 0, 0, 33535106744320%N); (79, 0, 0, 33535106744320%N); (80, 0, 0, 1143948939970478080%N); (81, 0, 0, 1143948939970478080%N); (82, 0, 0, 1143948939970478080%N); (83, 0, 0, 1143948939970478080%N); (88, 0, 0, 1143948939970478080%N); (89, 0, 0, 1143948939970478080%N); (90, 0, 0, 1143948939970478080%N); (91, 0, 0, 1143948939970478080%N); (92, 0, 0, 1143948939970478080%N); (93, 0, 0, 1143948939970478080%N); (94, 0, 0, 1143948939970478080%N); (95, 0, 0, 1143948939970478080%N); (96, 0, 0, 1143948939970478080%N); (103, 0, 0, 1143948939970478080%N); (104, 0, 0, 1143948939970478080%N); (105, 0, 0, 1143948939970478080%N); (106, 0, 0, 1143948939970478080%N)];
  [(38, 0, 0, 23170703866890162480%N); (39, 3, 0, 71945013298%N)];
  [(62, 0, 0, 23170703869033451824%N); (63, 3, 0, 71945013298%N)];
  [(10, 0, 0, 32%N); (11, 0, 0, 32%N); (12, 3, 0, 23170703901245708210%N); (108, 1, 0, 281474976710752%N); (111, 0, 0, 256%N)];
  [(107, 1, 0, 281474976710752%N)];
  [(14, 3, 0, 23170703901245708210%N)];
  [(15, 3, 0, 23170703901245708210%N)];
  [(56, 3, 0, 268621738080705046642%N); (87, 1, 0, 9223372036854775872%N); (111, 0, 0, 32394075490542944576%N)];
  [(59, 3, 0, 268621738080705046642%N); (66, 1, 0, 9358514660292165632%N); (67, 1, 0, 9358514660292165632%N); (68, 1, 0, 10367320976823156736%N); (69, 1, 0, 10367320976823156736%N); (70, 1, 0, 10367320976823156736%N); (71, 1, 0, 9250428269235273728%N); (72, 1, 0, 9250428269235273728%N); (73, 1, 0, 9223406671471050752%N); (74, 1, 0, 9223380832947798016%N); (75, 1, 0, 9223398425133842432%N); (76, 1, 0, 9223398974889656320%N); (77, 1, 0, 9223401173912911872%N); (78, 1, 0, 9223405571959422976%N)];
  [(33, 0, 0, 10367320976823156800%N); (53, 0, 0, 157941273566499569728%N); (54, 0, 0, 157941273566499569728%N); (55, 0, 0, 194834761713918672960%N); (56, 0, 0, 194834761713918672960%N); (57, 0, 0, 194834761713918672960%N); (58, 0, 0, 194834761713918672960%N); (59, 0, 0, 194834761713918672960%N); (64, 0, 0, 10367320976823156800%N); (65, 0, 0, 10367320976823156800%N); (66, 0, 0, 9358514660292165696%N); (67, 0, 0, 9358514660292165696%N); (68, 0, 0, 10367320976823156800%N); (69, 0, 0, 10367320976823156800%N); (70, 0, 0, 10367320976823156800%N); (71, 0, 0, 9250428269235273792%N); (72, 0, 0, 9250428269235273792%N); (73, 0, 0, 9223406671471050816%N); (74, 0, 0, 9223380832947798080%N); (75, 0, 0, 9223398425133842496%N); (76, 0, 0, 9223398974889656384%N); (77, 0, 0, 9223401173912911936%N); (78, 0, 0, 9223405571959423040%N); (79, 0, 0, 9223405571959423040%N); (80, 0, 0, 10367320976823156800%N); (81, 0, 0, 10367320976823156800%N); (82, 0, 0, 10367320976823156800%N); (83, 0, 0, 10367320976823156800%N); (84, 0, 0, 9223372036854775872%N); (85, 0, 0, 9223372036854775872%N); (86, 0, 0, 9223372036854775872%N); (87, 0, 0, 9223372036854775872%N); (88, 0, 0, 10367320976823156800%N); (89, 0, 0, 10367320976823156800%N); (90, 0, 0, 10367320976823156800%N); (91, 0, 0, 10367320976823156800%N); (92, 0, 0, 10367320976823156800%N); (93, 0, 0, 10367320976823156800%N); (94, 0, 0, 10367320976823156800%N); (95, 0, 0, 10367320976823156800%N); (96, 0, 0, 10367320976823156800%N); (103, 0, 0, 10367320976823156800%N); (104, 0, 0, 10367320976823156800%N); (104, 3, 0, 84154297343609530482%N); (105, 0, 0, 10367320976823156800%N); (106, 0, 0, 10367320976823156800%N)];
  [(87, 1, 0, 9223372036854775872%N); (105, 3, 0, 84154297343609530482%N); (111, 0, 0, 32394075490542944576%N)];
  [(33, 3, 0, 84154297343609530482%N); (66, 1, 0, 135142623437389888%N); (67, 1, 0, 135142623437389888%N); (68, 1, 0, 1143948939968380992%N); (69, 1, 0, 1143948939968380992%N); (70, 1, 0, 1143948939968380992%N); (71, 1, 0, 27056232380497984%N); (72, 1, 0, 27056232380497984%N); (73, 1, 0, 34634616275008%N); (74, 1, 0, 8796093022272%N); (75, 1, 0, 26388279066688%N); (76, 1, 0, 26938034880576%N); (77, 1, 0, 29137058136128%N); (78, 1, 0, 33535104647232%N); (111, 0, 0, 23170703453688168704%N)];
  [(57, 4, 0, 268621738080705046642%N)];
  [(87, 3, 0, 9223372036854775872%N)];
  [(19, 1, 0, 114736%N); (22, 0, 0, 23170703866886082864%N); (23, 0, 0, 23170703866886082864%N); (28, 4, 0, 71945013298%N); (29, 0, 0, 98304%N); (30, 0, 0, 98304%N); (109, 0, 0, 23170703866886082864%N); (110, 0, 0, 23170703866886082864%N)];
  [(33, 0, 0, 2097152%N); (35, 4, 0, 71945013298%N); (40, 0, 0, 2097152%N); (41, 0, 0, 2097152%N); (42, 0, 0, 2097152%N); (43, 0, 0, 2097152%N); (53, 0, 0, 147573952589678510080%N); (54, 0, 0, 147573952589678510080%N); (55, 0, 0, 184467440737097613312%N); (56, 0, 0, 184467440737097613312%N); (57, 0, 0, 184467440737097613312%N); (58, 0, 0, 184467440737097613312%N); (59, 0, 0, 184467440737097613312%N); (103, 0, 0, 2097152%N); (104, 0, 0, 2097152%N); (105, 0, 0, 2097152%N)];
  [(37, 4, 0, 71945013298%N); (66, 1, 0, 135142623439486976%N); (67, 1, 0, 135142623439486976%N); (68, 1, 0, 1143948939970478080%N); (69, 1, 0, 1143948939970478080%N); (70, 1, 0, 1143948939970478080%N); (71, 1, 0, 27056232382595072%N); (72, 1, 0, 27056232382595072%N); (73, 1, 0, 34634618372096%N); (74, 1, 0, 8796095119360%N); (75, 1, 0, 26388281163776%N); (76, 1, 0, 26938036977664%N); (77, 1, 0, 29137060233216%N); (78, 1, 0, 33535106744320%N)];
  [(16, 0, 0, 4194352%N); (17, 0, 0, 4194352%N); (18, 0, 0, 4194352%N); (19, 0, 0, 4194352%N); (28, 0, 0, 4194352%N); (33, 0, 0, 1143948939972575280%N); (35, 0, 0, 4194352%N); (37, 0, 0, 4194352%N); (39, 0, 0, 4194352%N); (39, 4, 0, 71945013298%N); (44, 0, 0, 4194352%N); (45, 0, 0, 4194352%N); (46, 0, 0, 4194352%N); (47, 0, 0, 4194352%N); (48, 0, 0, 4194352%N); (49, 0, 0, 4194352%N); (50, 0, 0, 4194352%N); (51, 0, 0, 4194352%N); (52, 0, 0, 4194352%N); (53, 0, 0, 148717901529648988208%N); (54, 0, 0, 148717901529648988208%N); (55, 0, 0, 185611389677068091440%N); (56, 0, 0, 185611389677068091440%N); (57, 0, 0, 185611389677068091440%N); (58, 0, 0, 185611389677068091440%N); (59, 0, 0, 185611389677068091440%N); (63, 0, 0, 4194352%N); (64, 0, 12, 1143948939972575280%N); (65, 0, 12, 1143948939972575280%N); (66, 0, 12, 135142623441584176%N); (67, 0, 12, 135142623441584176%N); (68, 0, 12, 1143948939972575280%N); (69, 0, 12, 1143948939972575280%N); (70, 0, 12, 1143948939972575280%N); (71, 0, 12, 27056232384692272%N); (72, 0, 12, 27056232384692272%N); (73, 0, 12, 34634620469296%N); (74, 0, 12, 8796097216560%N); (75, 0, 12, 26388283260976%N); (76, 0, 12, 26938039074864%N); (77, 0, 12, 29137062330416%N); (78, 0, 12, 33535108841520%N); (79, 0, 12, 33535108841520%N); (80, 0, 12, 1143948939972575280%N); (81, 0, 12, 1143948939972575280%N); (82, 0, 12, 1143948939972575280%N); (83, 0, 12, 1143947840460947504%N); (88, 0, 0, 1143948939972575280%N); (89, 0, 0, 1143948939972575280%N); (90, 0, 0, 1143948939972575280%N); (91, 0, 0, 1143948939972575280%N); (92, 0, 0, 1143948939972575280%N); (93, 0, 0, 1143948939972575280%N); (94, 0, 0, 1143948939972575280%N); (95, 0, 0, 1143948939972575280%N); (96, 0, 0, 1143948939972575280%N); (103, 0, 0, 1143948939972575280%N); (104, 0, 0, 1143948939972575280%N); (105, 0, 0, 1143948939972575280%N); (106, 0, 0, 1143948939972575280%N)];
  [(16, 0, 0, 2147483696%N); (17, 0, 0, 2147483696%N); (18, 0, 0, 2147483696%N); (19, 0, 0, 2147483696%N); (28, 0, 0, 2147483696%N); (33, 0, 0, 1143948942115864624%N); (35, 0, 0, 2147483696%N); (37, 0, 0, 2147483696%N); (39, 0, 0, 2147483696%N); (44, 0, 0, 2147483696%N); (45, 0, 0, 2147483696%N); (46, 0, 0, 2147483696%N); (47, 0, 0, 2147483696%N); (48, 0, 0, 2147483696%N); (49, 0, 0, 2147483696%N); (50, 0, 0, 2147483696%N); (51, 0, 0, 2147483696%N); (52, 0, 0, 2147483696%N); (53, 0, 0, 148717901531792277552%N); (54, 0, 0, 148717901531792277552%N); (55, 0, 0, 185611389679211380784%N); (56, 0, 0, 185611389679211380784%N); (57, 0, 0, 185611389679211380784%N); (58, 0, 0, 185611389679211380784%N); (59, 0, 0, 185611389679211380784%N); (63, 0, 0, 2147483696%N); (63, 4, 0, 71945013298%N); (64, 0, 12, 1143948942115864624%N); (65, 0, 12, 1143948942115864624%N); (66, 0, 12, 135142625584873520%N); (67, 0, 12, 135142625584873520%N); (68, 0, 12, 1143948942115864624%N); (69, 0, 12, 1143948942115864624%N); (70, 0, 12, 1143948942115864624%N); (71, 0, 12, 27056234527981616%N); (72, 0, 12, 27056234527981616%N); (73, 0, 12, 34636763758640%N); (74, 0, 12, 8798240505904%N); (75, 0, 12, 26390426550320%N); (76, 0, 12, 26940182364208%N); (77, 0, 12, 29139205619760%N); (78, 0, 12, 33537252130864%N); (79, 0, 12, 33537252130864%N); (80, 0, 12, 1143948942115864624%N); (81, 0, 12, 1143948942115864624%N); (82, 0, 12, 1143948942115864624%N); (83, 0, 12, 1143947842604236848%N); (88, 0, 0, 1143948942115864624%N); (89, 0, 0, 1143948942115864624%N); (90, 0, 0, 1143948942115864624%N); (91, 0, 0, 1143948942115864624%N); (92, 0, 0, 1143948942115864624%N); (93, 0, 0, 1143948942115864624%N); (94, 0, 0, 1143948942115864624%N); (95, 0, 0, 1143948942115864624%N); (96, 0, 0, 1143948942115864624%N); (103, 0, 0, 1143948942115864624%N); (104, 0, 0, 1143948942115864624%N); (105, 0, 0, 1143948942115864624%N); (106, 0, 0, 1143948942115864624%N)];
  [(12, 4, 0, 23170703901245708210%N); (109, 0, 0, 23170703901245708210%N)];
  [(108, 2, 0, 281474976710752%N)];
  [(11, 1, 0, 23170703935605447984%N)];
  [(14, 4, 0, 23170703901245708210%N); (97, 0, 0, 9223373136366403648%N); (98, 0, 0, 9223373136366403648%N); (99, 0, 0, 9223373136366403648%N); (100, 0, 0, 9223372036854775872%N); (101, 0, 0, 9223372036854775872%N); (102, 0, 0, 9223372036854775872%N)];
  [(15, 4, 0, 23170703901245708210%N); (97, 0, 0, 9223373136366403648%N); (98, 0, 0, 9223373136366403648%N); (99, 0, 0, 9223373136366403648%N); (100, 0, 0, 9223372036854775872%N); (101, 0, 0, 9223372036854775872%N); (102, 0, 0, 9223372036854775872%N)];
  [(56, 4, 0, 268621738080705046642%N)];
  [(59, 4, 0, 268621738080705046642%N)];
  [(87, 1, 0, 9223372036854775872%N); (104, 4, 0, 84154297343609530482%N); (111, 0, 0, 32394075490542944576%N)];
  [(105, 4, 0, 84154297343609530482%N)];
  [(33, 0, 0, 1143948939968380992%N); (33, 4, 0, 84154297343609530482%N); (53, 0, 0, 148717901529644793920%N); (54, 0, 0, 148717901529644793920%N); (55, 0, 0, 185611389677063897152%N); (56, 0, 0, 185611389677063897152%N); (57, 0, 0, 185611389677063897152%N); (58, 0, 0, 185611389677063897152%N); (59, 0, 0, 185611389677063897152%N); (64, 0, 0, 1143948939968380992%N); (65, 0, 0, 1143948939968380992%N); (66, 0, 0, 135142623437389888%N); (67, 0, 0, 135142623437389888%N); (68, 0, 0, 1143948939968380992%N); (69, 0, 0, 1143948939968380992%N); (70, 0, 0, 1143948939968380992%N); (71, 0, 0, 27056232380497984%N); (72, 0, 0, 27056232380497984%N); (73, 0, 0, 34634616275008%N); (74, 0, 0, 8796093022272%N); (75, 0, 0, 26388279066688%N); (76, 0, 0, 26938034880576%N); (77, 0, 0, 29137058136128%N); (78, 0, 0, 33535104647232%N); (79, 0, 0, 33535104647232%N); (80, 0, 0, 1143948939968380992%N); (81, 0, 0, 1143948939968380992%N); (82, 0, 0, 1143948939968380992%N); (83, 0, 0, 1143948939968380992%N); (88, 0, 0, 1143948939968380992%N); (89, 0, 0, 1143948939968380992%N); (90, 0, 0, 1143948939968380992%N); (91, 0, 0, 1143948939968380992%N); (92, 0, 0, 1143948939968380992%N); (93, 0, 0, 1143948939968380992%N); (94, 0, 0, 1143948939968380992%N); (95, 0, 0, 1143948939968380992%N); (96, 0, 0, 1143948939968380992%N); (103, 0, 0, 1143948939968380992%N); (104, 0, 0, 1143948939968380992%N); (105, 0, 0, 1143948939968380992%N); (106, 0, 0, 1143948939968380992%N)];
  [(28, 5, 0, 71945013298%N); (31, 0, 0, 65536%N); (32, 0, 0, 65536%N)];
  [(30, 1, 0, 98304%N); (33, 0, 0, 1143948939968389120%N); (53, 0, 0, 148717901529644802048%N); (54, 0, 0, 148717901529644802048%N); (55, 0, 0, 185611389677063905280%N); (56, 0, 0, 185611389677063905280%N); (57, 0, 0, 185611389677063905280%N); (58, 0, 0, 185611389677063905280%N); (59, 0, 0, 185611389677063905280%N); (64, 0, 0, 1143948939968389120%N); (65, 0, 0, 1143948939968389120%N); (66, 0, 0, 135142623437398016%N); (67, 0, 0, 135142623437398016%N); (68, 0, 0, 1143948939968389120%N); (69, 0, 0, 1143948939968389120%N); (70, 0, 0, 1143948939968389120%N); (71, 0, 0, 27056232380506112%N); (72, 0, 0, 27056232380506112%N); (73, 0, 0, 34634616283136%N); (74, 0, 0, 8796093030400%N); (75, 0, 0, 26388279074816%N); (76, 0, 0, 26938034888704%N); (77, 0, 0, 29137058144256%N); (78, 0, 0, 33535104655360%N); (79, 0, 0, 33535104655360%N); (80, 0, 0, 1143948939968389120%N); (81, 0, 0, 1143948939968389120%N); (82, 0, 0, 1143948939968389120%N); (83, 0, 0, 1143948939968389120%N); (88, 0, 0, 1143948939968389120%N); (89, 0, 0, 1143948939968389120%N); (90, 0, 0, 1143948939968389120%N); (91, 0, 0, 1143948939968389120%N); (92, 0, 0, 1143948939968389120%N); (93, 0, 0, 1143948939968389120%N); (94, 0, 0, 1143948939968389120%N); (95, 0, 0, 1143948939968389120%N); (96, 0, 0, 1143948939968389120%N); (103, 0, 0, 1143948939968389120%N); (104, 0, 0, 1143948939968389120%N); (105, 0, 0, 1143948939968389120%N); (106, 0, 0, 1143948939968389120%N)];
  [(35, 5, 0, 71945013298%N)];
  [(40, 1, 0, 2097152%N); (54, 1, 0, 147573952589678510080%N); (112, 0, 0, 2251799813685504%N)];
  [(41, 1, 0, 2097152%N)];
  [(42, 1, 0, 2097152%N); (103, 0, 0, 9223372036854775808%N); (104, 0, 0, 9223372036854775808%N); (105, 0, 0, 9223372036854775808%N)];
  [(43, 1, 0, 2097152%N)];
  [(36, 0, 0, 23170703866890162480%N); (37, 5, 0, 71945013298%N)];
  [(19, 1, 0, 4194352%N); (22, 0, 0, 23170703866890162480%N); (23, 0, 0, 23170703866890162480%N); (39, 5, 0, 71945013298%N); (109, 0, 0, 23170703866890162480%N); (110, 0, 0, 23170703866890162480%N)];
  [(19, 1, 0, 2147483696%N); (22, 0, 0, 23170703869033451824%N); (23, 0, 0, 23170703869033451824%N); (63, 5, 0, 71945013298%N); (109, 0, 0, 23170703869033451824%N); (110, 0, 0, 23170703869033451824%N)];
  [(12, 5, 0, 23170703901245708210%N)];
  [(108, 3, 0, 281474976710752%N)];
  [(14, 5, 0, 23170703901245708210%N); (102, 1, 0, 9223372036854775872%N); (111, 0, 0, 33554688%N)];
  [(99, 1, 0, 9223373136366403648%N); (101, 1, 0, 9223372036854775872%N)];
  [(97, 1, 0, 9223373136366403648%N)];
  [(98, 1, 0, 9223373136366403648%N)];
  [(15, 5, 0, 23170703901245708210%N); (102, 1, 0, 9223372036854775872%N); (111, 0, 0, 33554688%N)];
  [(104, 5, 0, 84154297343609530482%N)];
  [(33, 5, 0, 84154297343609530482%N); (66, 1, 0, 135142623437389888%N); (67, 1, 0, 135142623437389888%N); (68, 1, 0, 1143948939968380992%N); (69, 1, 0, 1143948939968380992%N); (70, 1, 0, 1143948939968380992%N); (71, 1, 0, 27056232380497984%N); (72, 1, 0, 27056232380497984%N); (73, 1, 0, 34634616275008%N); (74, 1, 0, 8796093022272%N); (75, 1, 0, 26388279066688%N); (76, 1, 0, 26938034880576%N); (77, 1, 0, 29137058136128%N); (78, 1, 0, 33535104647232%N); (111, 0, 0, 23170703453688168704%N)];
  [(28, 6, 0, 71945013298%N)];
  [(16, 0, 0, 65584%N); (17, 0, 0, 65584%N); (18, 0, 0, 65584%N); (19, 0, 0, 65584%N); (28, 0, 0, 65584%N); (32, 1, 0, 65536%N); (33, 0, 0, 1143948939968446512%N); (35, 0, 0, 65584%N); (37, 0, 0, 65584%N); (39, 0, 0, 65584%N); (44, 0, 0, 65584%N); (45, 0, 0, 65584%N); (46, 0, 0, 65584%N); (47, 0, 0, 65584%N); (48, 0, 0, 65584%N); (49, 0, 0, 65584%N); (50, 0, 0, 65584%N); (51, 0, 0, 65584%N); (52, 0, 0, 65584%N); (53, 0, 0, 148717901529644859440%N); (54, 0, 0, 148717901529644859440%N); (55, 0, 0, 185611389677063962672%N); (56, 0, 0, 185611389677063962672%N); (57, 0, 0, 185611389677063962672%N); (58, 0, 0, 185611389677063962672%N); (59, 0, 0, 185611389677063962672%N); (63, 0, 0, 65584%N); (64, 0, 12, 1143948939968446512%N); (65, 0, 12, 1143948939968446512%N); (66, 0, 12, 135142623437455408%N); (67, 0, 12, 135142623437455408%N); (68, 0, 12, 1143948939968446512%N); (69, 0, 12, 1143948939968446512%N); (70, 0, 12, 1143948939968446512%N); (71, 0, 12, 27056232380563504%N); (72, 0, 12, 27056232380563504%N); (73, 0, 12, 34634616340528%N); (74, 0, 12, 8796093087792%N); (75, 0, 12, 26388279132208%N); (76, 0, 12, 26938034946096%N); (77, 0, 12, 29137058201648%N); (78, 0, 12, 33535104712752%N); (79, 0, 12, 33535104712752%N); (80, 0, 12, 1143948939968446512%N); (81, 0, 12, 1143948939968446512%N); (82, 0, 12, 1143948939968446512%N); (83, 0, 12, 1143947840456818736%N); (88, 0, 0, 1143948939968446512%N); (89, 0, 0, 1143948939968446512%N); (90, 0, 0, 1143948939968446512%N); (91, 0, 0, 1143948939968446512%N); (92, 0, 0, 1143948939968446512%N); (93, 0, 0, 1143948939968446512%N); (94, 0, 0, 1143948939968446512%N); (95, 0, 0, 1143948939968446512%N); (96, 0, 0, 1143948939968446512%N); (103, 0, 0, 1143948939968446512%N); (104, 0, 0, 1143948939968446512%N); (105, 0, 0, 1143948939968446512%N); (106, 0, 0, 1143948939968446512%N)];
  [(30, 2, 0, 98304%N); (66, 1, 0, 135142623437398016%N); (67, 1, 0, 135142623437398016%N); (68, 1, 0, 1143948939968389120%N); (69, 1, 0, 1143948939968389120%N); (70, 1, 0, 1143948939968389120%N); (71, 1, 0, 27056232380506112%N); (72, 1, 0, 27056232380506112%N); (73, 1, 0, 34634616283136%N); (74, 1, 0, 8796093030400%N); (75, 1, 0, 26388279074816%N); (76, 1, 0, 26938034888704%N); (77, 1, 0, 29137058144256%N); (78, 1, 0, 33535104655360%N)];
  [(34, 0, 0, 23170703866890162480%N); (35, 6, 0, 71945013298%N)];
  [(42, 2, 0, 2097152%N)];
  [(16, 0, 0, 4194352%N); (17, 0, 0, 4194352%N); (18, 0, 0, 4194352%N); (19, 0, 0, 4194352%N); (28, 0, 0, 4194352%N); (33, 0, 0, 1143948939972575280%N); (35, 0, 0, 4194352%N); (37, 0, 0, 4194352%N); (37, 6, 0, 71945013298%N); (39, 0, 0, 4194352%N); (44, 0, 0, 4194352%N); (45, 0, 0, 4194352%N); (46, 0, 0, 4194352%N); (47, 0, 0, 4194352%N); (48, 0, 0, 4194352%N); (49, 0, 0, 4194352%N); (50, 0, 0, 4194352%N); (51, 0, 0, 4194352%N); (52, 0, 0, 4194352%N); (53, 0, 0, 148717901529648988208%N); (54, 0, 0, 148717901529648988208%N); (55, 0, 0, 185611389677068091440%N); (56, 0, 0, 185611389677068091440%N); (57, 0, 0, 185611389677068091440%N); (58, 0, 0, 185611389677068091440%N); (59, 0, 0, 185611389677068091440%N); (63, 0, 0, 4194352%N); (64, 0, 12, 1143948939972575280%N); (65, 0, 12, 1143948939972575280%N); (66, 0, 12, 135142623441584176%N); (67, 0, 12, 135142623441584176%N); (68, 0, 12, 1143948939972575280%N); (69, 0, 12, 1143948939972575280%N); (70, 0, 12, 1143948939972575280%N); (71, 0, 12, 27056232384692272%N); (72, 0, 12, 27056232384692272%N); (73, 0, 12, 34634620469296%N); (74, 0, 12, 8796097216560%N); (75, 0, 12, 26388283260976%N); (76, 0, 12, 26938039074864%N); (77, 0, 12, 29137062330416%N); (78, 0, 12, 33535108841520%N); (79, 0, 12, 33535108841520%N); (80, 0, 12, 1143948939972575280%N); (81, 0, 12, 1143948939972575280%N); (82, 0, 12, 1143948939972575280%N); (83, 0, 12, 1143947840460947504%N); (88, 0, 0, 1143948939972575280%N); (89, 0, 0, 1143948939972575280%N); (90, 0, 0, 1143948939972575280%N); (91, 0, 0, 1143948939972575280%N); (92, 0, 0, 1143948939972575280%N); (93, 0, 0, 1143948939972575280%N); (94, 0, 0, 1143948939972575280%N); (95, 0, 0, 1143948939972575280%N); (96, 0, 0, 1143948939972575280%N); (103, 0, 0, 1143948939972575280%N); (104, 0, 0, 1143948939972575280%N); (105, 0, 0, 1143948939972575280%N); (106, 0, 0, 1143948939972575280%N)];
  [(39, 6, 0, 71945013298%N)];
  [(63, 6, 0, 71945013298%N)];
  [(10, 0, 0, 23170703935605445936%N); (11, 0, 0, 23170703935605445936%N); (14, 6, 0, 23170703901245708210%N)];
  [(97, 0, 0, 9223373136366403648%N); (98, 0, 0, 9223373136366403648%N); (99, 0, 0, 9223373136366403648%N); (102, 2, 0, 9223372036854775872%N)];
  [(88, 0, 0, 9223373136366403648%N); (89, 0, 0, 9223373136366403648%N); (90, 0, 0, 9223373136366403648%N); (91, 0, 0, 9223373136366403648%N); (92, 0, 0, 9223373136366403648%N); (93, 0, 0, 9223373136366403648%N); (94, 0, 0, 9223373136366403648%N); (95, 0, 0, 9223373136366403648%N); (96, 0, 0, 9223373136366403648%N); (99, 2, 0, 9223373136366403648%N); (106, 0, 0, 9223373136366403648%N)];
  [(98, 2, 0, 9223373136366403648%N)];
  [(10, 0, 0, 23170703866885971248%N); (11, 0, 0, 23170703866885971248%N); (15, 6, 0, 23170703901245708210%N)];
  [(33, 0, 0, 10367320976823156736%N); (33, 6, 0, 84154297343609530482%N); (53, 0, 0, 157941273566499569664%N); (54, 0, 0, 157941273566499569664%N); (55, 0, 0, 194834761713918672896%N); (56, 0, 0, 194834761713918672896%N); (57, 0, 0, 194834761713918672896%N); (58, 0, 0, 194834761713918672896%N); (59, 0, 0, 194834761713918672896%N); (64, 0, 0, 10367320976823156736%N); (65, 0, 0, 10367320976823156736%N); (66, 0, 0, 9358514660292165632%N); (67, 0, 0, 9358514660292165632%N); (68, 0, 0, 10367320976823156736%N); (69, 0, 0, 10367320976823156736%N); (70, 0, 0, 10367320976823156736%N); (71, 0, 0, 9250428269235273728%N); (72, 0, 0, 9250428269235273728%N); (73, 0, 0, 9223406671471050752%N); (74, 0, 0, 9223380832947798016%N); (75, 0, 0, 9223398425133842432%N); (76, 0, 0, 9223398974889656320%N); (77, 0, 0, 9223401173912911872%N); (78, 0, 0, 9223405571959422976%N); (79, 0, 0, 9223405571959422976%N); (80, 0, 0, 10367320976823156736%N); (81, 0, 0, 10367320976823156736%N); (82, 0, 0, 10367320976823156736%N); (83, 0, 0, 10367320976823156736%N); (88, 0, 0, 10367320976823156736%N); (89, 0, 0, 10367320976823156736%N); (90, 0, 0, 10367320976823156736%N); (91, 0, 0, 10367320976823156736%N); (92, 0, 0, 10367320976823156736%N); (93, 0, 0, 10367320976823156736%N); (94, 0, 0, 10367320976823156736%N); (95, 0, 0, 10367320976823156736%N); (96, 0, 0, 10367320976823156736%N); (103, 0, 0, 10367320976823156736%N); (104, 0, 0, 10367320976823156736%N); (105, 0, 0, 10367320976823156736%N); (106, 0, 0, 10367320976823156736%N)];
  [(28, 7, 0, 71945013298%N)];
  [(19, 1, 0, 65584%N); (22, 0, 0, 23170703866886033712%N); (23, 0, 0, 23170703866886033712%N); (32, 2, 0, 65536%N); (109, 0, 0, 23170703866886033712%N); (110, 0, 0, 23170703866886033712%N)];
  [(16, 0, 0, 114736%N); (17, 0, 0, 114736%N); (18, 0, 0, 114736%N); (19, 0, 0, 114736%N); (28, 0, 0, 114736%N); (30, 3, 0, 98304%N); (33, 0, 0, 1143948939968495664%N); (35, 0, 0, 114736%N); (37, 0, 0, 114736%N); (39, 0, 0, 114736%N); (44, 0, 0, 114736%N); (45, 0, 0, 114736%N); (46, 0, 0, 114736%N); (47, 0, 0, 114736%N); (48, 0, 0, 114736%N); (49, 0, 0, 114736%N); (50, 0, 0, 114736%N); (51, 0, 0, 114736%N); (52, 0, 0, 114736%N); (53, 0, 0, 148717901529644908592%N); (54, 0, 0, 148717901529644908592%N); (55, 0, 0, 185611389677064011824%N); (56, 0, 0, 185611389677064011824%N); (57, 0, 0, 185611389677064011824%N); (58, 0, 0, 185611389677064011824%N); (59, 0, 0, 185611389677064011824%N); (63, 0, 0, 114736%N); (64, 0, 12, 1143948939968495664%N); (65, 0, 12, 1143948939968495664%N); (66, 0, 12, 135142623437504560%N); (67, 0, 12, 135142623437504560%N); (68, 0, 12, 1143948939968495664%N); (69, 0, 12, 1143948939968495664%N); (70, 0, 12, 1143948939968495664%N); (71, 0, 12, 27056232380612656%N); (72, 0, 12, 27056232380612656%N); (73, 0, 12, 34634616389680%N); (74, 0, 12, 8796093136944%N); (75, 0, 12, 26388279181360%N); (76, 0, 12, 26938034995248%N); (77, 0, 12, 29137058250800%N); (78, 0, 12, 33535104761904%N); (79, 0, 12, 33535104761904%N); (80, 0, 12, 1143948939968495664%N); (81, 0, 12, 1143948939968495664%N); (82, 0, 12, 1143948939968495664%N); (83, 0, 12, 1143947840456867888%N); (88, 0, 0, 1143948939968495664%N); (89, 0, 0, 1143948939968495664%N); (90, 0, 0, 1143948939968495664%N); (91, 0, 0, 1143948939968495664%N); (92, 0, 0, 1143948939968495664%N); (93, 0, 0, 1143948939968495664%N); (94, 0, 0, 1143948939968495664%N); (95, 0, 0, 1143948939968495664%N); (96, 0, 0, 1143948939968495664%N); (103, 0, 0, 1143948939968495664%N); (104, 0, 0, 1143948939968495664%N); (105, 0, 0, 1143948939968495664%N); (106, 0, 0, 1143948939968495664%N)];
  [(16, 0, 0, 4194352%N); (17, 0, 0, 4194352%N); (18, 0, 0, 4194352%N); (19, 0, 0, 4194352%N); (28, 0, 0, 4194352%N); (33, 0, 0, 1143948939972575280%N); (35, 0, 0, 4194352%N); (35, 7, 0, 71945013298%N); (37, 0, 0, 4194352%N); (39, 0, 0, 4194352%N); (44, 0, 0, 4194352%N); (45, 0, 0, 4194352%N); (46, 0, 0, 4194352%N); (47, 0, 0, 4194352%N); (48, 0, 0, 4194352%N); (49, 0, 0, 4194352%N); (50, 0, 0, 4194352%N); (51, 0, 0, 4194352%N); (52, 0, 0, 4194352%N); (53, 0, 0, 148717901529648988208%N); (54, 0, 0, 148717901529648988208%N); (55, 0, 0, 185611389677068091440%N); (56, 0, 0, 185611389677068091440%N); (57, 0, 0, 185611389677068091440%N); (58, 0, 0, 185611389677068091440%N); (59, 0, 0, 185611389677068091440%N); (63, 0, 0, 4194352%N); (64, 0, 12, 1143948939972575280%N); (65, 0, 12, 1143948939972575280%N); (66, 0, 12, 135142623441584176%N); (67, 0, 12, 135142623441584176%N); (68, 0, 12, 1143948939972575280%N); (69, 0, 12, 1143948939972575280%N); (70, 0, 12, 1143948939972575280%N); (71, 0, 12, 27056232384692272%N); (72, 0, 12, 27056232384692272%N); (73, 0, 12, 34634620469296%N); (74, 0, 12, 8796097216560%N); (75, 0, 12, 26388283260976%N); (76, 0, 12, 26938039074864%N); (77, 0, 12, 29137062330416%N); (78, 0, 12, 33535108841520%N); (79, 0, 12, 33535108841520%N); (80, 0, 12, 1143948939972575280%N); (81, 0, 12, 1143948939972575280%N); (82, 0, 12, 1143948939972575280%N); (83, 0, 12, 1143947840460947504%N); (88, 0, 0, 1143948939972575280%N); (89, 0, 0, 1143948939972575280%N); (90, 0, 0, 1143948939972575280%N); (91, 0, 0, 1143948939972575280%N); (92, 0, 0, 1143948939972575280%N); (93, 0, 0, 1143948939972575280%N); (94, 0, 0, 1143948939972575280%N); (95, 0, 0, 1143948939972575280%N); (96, 0, 0, 1143948939972575280%N); (103, 0, 0, 1143948939972575280%N); (104, 0, 0, 1143948939972575280%N); (105, 0, 0, 1143948939972575280%N); (106, 0, 0, 1143948939972575280%N)];
  [(42, 3, 0, 2097152%N)];
  [(19, 1, 0, 4194352%N); (22, 0, 0, 23170703866890162480%N); (23, 0, 0, 23170703866890162480%N); (37, 7, 0, 71945013298%N); (109, 0, 0, 23170703866890162480%N); (110, 0, 0, 23170703866890162480%N)];
  [(13, 0, 0, 23170703935605445936%N); (14, 7, 0, 23170703901245708210%N)];
  [(99, 1, 0, 9223373136366403648%N); (102, 3, 0, 9223372036854775872%N)];
  [(99, 3, 0, 9223373136366403648%N)];
  [(15, 7, 0, 23170703901245708210%N); (24, 0, 0, 23170703866885970224%N); (25, 0, 0, 23170703866885970224%N); (26, 0, 0, 23170703866885971248%N); (27, 0, 0, 23170703866885971248%N)];
  [(33, 7, 0, 84154297343609530482%N); (66, 1, 0, 9358514660292165632%N); (67, 1, 0, 9358514660292165632%N); (68, 1, 0, 10367320976823156736%N); (69, 1, 0, 10367320976823156736%N); (70, 1, 0, 10367320976823156736%N); (71, 1, 0, 9250428269235273728%N); (72, 1, 0, 9250428269235273728%N); (73, 1, 0, 9223406671471050752%N); (74, 1, 0, 9223380832947798016%N); (75, 1, 0, 9223398425133842432%N); (76, 1, 0, 9223398974889656320%N); (77, 1, 0, 9223401173912911872%N); (78, 1, 0, 9223405571959422976%N)];
  [(19, 1, 0, 114736%N); (22, 0, 0, 23170703866886082864%N); (23, 0, 0, 23170703866886082864%N); (29, 0, 0, 98304%N); (30, 0, 0, 98304%N); (30, 4, 0, 98304%N); (109, 0, 0, 23170703866886082864%N); (110, 0, 0, 23170703866886082864%N)];
  [(19, 1, 0, 4194352%N); (22, 0, 0, 23170703866890162480%N); (23, 0, 0, 23170703866890162480%N); (35, 8, 0, 71945013298%N); (109, 0, 0, 23170703866890162480%N); (110, 0, 0, 23170703866890162480%N)];
  [(37, 8, 0, 71945013298%N)];
  [(14, 8, 0, 23170703901245708210%N); (24, 0, 0, 23170703935605444912%N); (25, 0, 0, 23170703935605444912%N); (26, 0, 0, 23170703935605445936%N); (27, 0, 0, 23170703935605445936%N)];
  [(15, 8, 0, 23170703901245708210%N); (16, 0, 0, 2096%N); (17, 0, 0, 2096%N); (18, 0, 0, 2096%N); (19, 0, 0, 2096%N); (28, 0, 0, 2096%N); (33, 0, 0, 1143948939968383024%N); (35, 0, 0, 2096%N); (37, 0, 0, 2096%N); (39, 0, 0, 2096%N); (44, 0, 0, 2096%N); (45, 0, 0, 2096%N); (46, 0, 0, 2096%N); (47, 0, 0, 2096%N); (48, 0, 0, 2096%N); (49, 0, 0, 2096%N); (50, 0, 0, 2096%N); (51, 0, 0, 2096%N); (52, 0, 0, 2096%N); (53, 0, 0, 148717901529644795952%N); (54, 0, 0, 148717901529644795952%N); (55, 0, 0, 185611389677063899184%N); (56, 0, 0, 185611389677063899184%N); (57, 0, 0, 185611389677063899184%N); (58, 0, 0, 185611389677063899184%N); (59, 0, 0, 185611389677063899184%N); (63, 0, 0, 2096%N); (64, 0, 12, 1143948939968383024%N); (65, 0, 12, 1143948939968383024%N); (66, 0, 12, 135142623437391920%N); (67, 0, 12, 135142623437391920%N); (68, 0, 12, 1143948939968383024%N); (69, 0, 12, 1143948939968383024%N); (70, 0, 12, 1143948939968383024%N); (71, 0, 12, 27056232380500016%N); (72, 0, 12, 27056232380500016%N); (73, 0, 12, 34634616277040%N); (74, 0, 12, 8796093024304%N); (75, 0, 12, 26388279068720%N); (76, 0, 12, 26938034882608%N); (77, 0, 12, 29137058138160%N); (78, 0, 12, 33535104649264%N); (79, 0, 12, 33535104649264%N); (80, 0, 12, 1143948939968383024%N); (81, 0, 12, 1143948939968383024%N); (82, 0, 12, 1143948939968383024%N); (83, 0, 12, 1143947840456755248%N); (88, 0, 0, 1143948939968383024%N); (89, 0, 0, 1143948939968383024%N); (90, 0, 0, 1143948939968383024%N); (91, 0, 0, 1143948939968383024%N); (92, 0, 0, 1143948939968383024%N); (93, 0, 0, 1143948939968383024%N); (94, 0, 0, 1143948939968383024%N); (95, 0, 0, 1143948939968383024%N); (96, 0, 0, 1143948939968383024%N); (103, 0, 0, 1143948939968383024%N); (104, 0, 0, 1143948939968383024%N); (105, 0, 0, 1143948939968383024%N); (106, 0, 0, 1143948939968383024%N)];
  [(25, 1, 0, 23170703935605446960%N); (27, 1, 0, 23170703935605447984%N)];
  [(26, 1, 0, 23170703935605447984%N); (107, 0, 0, 96%N); (108, 0, 0, 96%N)];
  [(33, 8, 0, 84154297343609530482%N)];
  [(30, 5, 0, 98304%N)];
  [(35, 9, 0, 71945013298%N)];
  [(14, 9, 0, 23170703901245708210%N); (16, 0, 0, 68719476784%N); (17, 0, 0, 68719476784%N); (18, 0, 0, 68719476784%N); (19, 0, 0, 68719476784%N); (28, 0, 0, 68719476784%N); (33, 0, 0, 1143949008687857712%N); (35, 0, 0, 68719476784%N); (37, 0, 0, 68719476784%N); (39, 0, 0, 68719476784%N); (44, 0, 0, 68719476784%N); (45, 0, 0, 68719476784%N); (46, 0, 0, 68719476784%N); (47, 0, 0, 68719476784%N); (48, 0, 0, 68719476784%N); (49, 0, 0, 68719476784%N); (50, 0, 0, 68719476784%N); (51, 0, 0, 68719476784%N); (52, 0, 0, 68719476784%N); (53, 0, 0, 148717901598364270640%N); (54, 0, 0, 148717901598364270640%N); (55, 0, 0, 185611389745783373872%N); (56, 0, 0, 185611389745783373872%N); (57, 0, 0, 185611389745783373872%N); (58, 0, 0, 185611389745783373872%N); (59, 0, 0, 185611389745783373872%N); (63, 0, 0, 68719476784%N); (64, 0, 12, 1143949008687857712%N); (65, 0, 12, 1143949008687857712%N); (66, 0, 12, 135142692156866608%N); (67, 0, 12, 135142692156866608%N); (68, 0, 12, 1143949008687857712%N); (69, 0, 12, 1143949008687857712%N); (70, 0, 12, 1143949008687857712%N); (71, 0, 12, 27056301099974704%N); (72, 0, 12, 27056301099974704%N); (73, 0, 12, 34703335751728%N); (74, 0, 12, 8864812498992%N); (75, 0, 12, 26456998543408%N); (76, 0, 12, 27006754357296%N); (77, 0, 12, 29205777612848%N); (78, 0, 12, 33603824123952%N); (79, 0, 12, 33603824123952%N); (80, 0, 12, 1143949008687857712%N); (81, 0, 12, 1143949008687857712%N); (82, 0, 12, 1143949008687857712%N); (83, 0, 12, 1143947909176229936%N); (88, 0, 0, 1143949008687857712%N); (89, 0, 0, 1143949008687857712%N); (90, 0, 0, 1143949008687857712%N); (91, 0, 0, 1143949008687857712%N); (92, 0, 0, 1143949008687857712%N); (93, 0, 0, 1143949008687857712%N); (94, 0, 0, 1143949008687857712%N); (95, 0, 0, 1143949008687857712%N); (96, 0, 0, 1143949008687857712%N); (103, 0, 0, 1143949008687857712%N); (104, 0, 0, 1143949008687857712%N); (105, 0, 0, 1143949008687857712%N); (106, 0, 0, 1143949008687857712%N)];
  [(15, 9, 0, 23170703901245708210%N); (19, 1, 0, 2096%N); (22, 0, 0, 23170703866885970224%N); (23, 0, 0, 23170703866885970224%N); (109, 0, 0, 23170703866885970224%N); (110, 0, 0, 23170703866885970224%N)];
  [(27, 2, 0, 23170703935605447984%N); (107, 0, 0, 96%N); (108, 0, 0, 96%N)];
  [(26, 2, 0, 23170703935605447984%N); (108, 1, 0, 96%N); (109, 0, 0, 23170703935605447984%N); (111, 0, 0, 256%N)];
  [(14, 10, 0, 23170703901245708210%N); (19, 1, 0, 68719476784%N); (22, 0, 0, 23170703935605444912%N); (23, 0, 0, 23170703935605444912%N); (109, 0, 0, 23170703935605444912%N); (110, 0, 0, 23170703935605444912%N)];
  [(15, 10, 0, 23170703901245708210%N)];
  [(27, 3, 0, 23170703935605447984%N); (108, 1, 0, 96%N); (109, 0, 0, 23170703935605447984%N); (111, 0, 0, 256%N)];
  [(26, 3, 0, 23170703935605447984%N)];
  [(14, 11, 0, 23170703901245708210%N)];
  [(27, 4, 0, 23170703935605447984%N)]
].
