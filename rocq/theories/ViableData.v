(** GENERATED by tools/gen_viable.py from ast/y.go and Grammar.v.  Checked in Viable.v. *)
From Verif Require Import Bytes.

(** For every nonterminal a production that leads to a short word. *)
Definition shortest : list Z := [18; 16; 49; 39; 14; 28; 29; 31; 20; 86; 64; 10; 8; 88; 100; 97; 84; 60; 53; 40; 103; 33; 24; 26; 107; 63; 55; 106; 22; 109; 110; 12; 111; 1; 4; 6; 13; 34; 36; 38; 112; 62].

(** For every state an item (production, dot) in which it can be left. *)
Definition picks : list (Z * Z) := [(1, 0); (0, 0); (2, 1); (3, 1); (18, 1); (19, 1); (4, 1); (83, 1); (45, 1); (46, 1); (47, 1); (48, 1); (49, 1); (50, 1); (51, 1); (52, 1); (6, 1); (7, 1); (53, 1); (64, 1); (65, 1); (79, 1); (80, 1); (81, 1); (82, 1); (28, 1); (37, 1); (39, 1); (63, 1); (12, 1); (55, 1); (58, 1); (88, 1); (89, 1); (90, 1); (91, 1); (92, 1); (93, 1); (94, 1); (95, 1); (96, 1); (103, 1); (33, 1); (9, 1); (106, 1); (3, 2); (5, 2); (17, 1); (19, 2); (22, 1); (23, 1); (109, 1); (110, 1); (44, 2); (54, 2); (112, 1); (66, 2); (67, 2); (68, 2); (69, 2); (70, 2); (71, 2); (72, 2); (73, 2); (74, 2); (75, 2); (76, 2); (77, 2); (78, 2); (51, 2); (85, 1); (83, 1); (52, 2); (57, 2); (65, 2); (86, 1); (79, 2); (81, 2); (28, 2); (35, 2); (68, 1); (39, 2); (19, 1); (12, 2); (14, 2); (15, 2); (56, 2); (58, 2); (59, 2); (60, 1); (61, 1); (90, 2); (91, 2); (103, 2); (105, 2); (33, 2); (19, 3); (21, 1); (44, 3); (54, 3); (66, 3); (67, 3); (68, 3); (69, 3); (70, 3); (71, 3); (72, 3); (73, 3); (74, 3); (75, 3); (76, 3); (77, 3); (78, 3); (57, 3); (65, 3); (87, 2); (111, 1); (28, 3); (35, 3); (37, 3); (39, 3); (63, 3); (12, 3); (107, 1); (14, 3); (15, 3); (56, 3); (59, 3); (104, 3); (87, 1); (68, 1); (57, 4); (87, 3); (19, 1); (35, 4); (37, 4); (39, 4); (63, 4); (12, 4); (108, 2); (11, 1); (14, 4); (15, 4); (56, 4); (59, 4); (87, 1); (105, 4); (33, 4); (28, 5); (30, 1); (35, 5); (40, 1); (41, 1); (42, 1); (43, 1); (37, 5); (19, 1); (19, 1); (12, 5); (108, 3); (14, 5); (101, 1); (97, 1); (98, 1); (15, 5); (104, 5); (68, 1); (28, 6); (32, 1); (30, 2); (35, 6); (42, 2); (37, 6); (39, 6); (63, 6); (14, 6); (102, 2); (99, 2); (98, 2); (15, 6); (33, 6); (28, 7); (32, 2); (30, 3); (35, 7); (42, 3); (19, 1); (14, 7); (102, 3); (99, 3); (15, 7); (33, 7); (30, 4); (19, 1); (37, 8); (14, 8); (15, 8); (25, 1); (26, 1); (33, 8); (30, 5); (35, 9); (14, 9); (15, 9); (27, 2); (26, 2); (14, 10); (15, 10); (27, 3); (26, 3); (14, 11); (27, 4)].

(** For every state the items used. *)
Definition mids : list (list (Z * Z)) := [
  [(1, 0); (2, 0); (3, 0); (4, 0); (5, 0); (6, 0); (7, 0); (9, 0); (12, 0); (14, 0); (15, 0); (18, 0); (19, 0); (28, 0); (33, 0); (35, 0); (37, 0); (39, 0); (44, 0); (45, 0); (46, 0); (47, 0); (48, 0); (49, 0); (50, 0); (51, 0); (52, 0); (53, 0); (54, 0); (55, 0); (56, 0); (57, 0); (58, 0); (59, 0); (63, 0); (64, 0); (65, 0); (66, 0); (67, 0); (68, 0); (69, 0); (70, 0); (71, 0); (72, 0); (73, 0); (74, 0); (75, 0); (76, 0); (77, 0); (78, 0); (79, 0); (80, 0); (81, 0); (82, 0); (83, 0); (88, 0); (89, 0); (90, 0); (91, 0); (92, 0); (93, 0); (94, 0); (95, 0); (96, 0); (103, 0); (104, 0); (105, 0); (106, 0)];
  [];
  [(2, 1)];
  [(3, 1); (5, 1); (6, 0); (7, 0); (9, 0); (12, 0); (14, 0); (15, 0); (17, 0); (18, 0); (19, 0); (28, 0); (33, 0); (35, 0); (37, 0); (39, 0); (44, 0); (45, 0); (46, 0); (47, 0); (48, 0); (49, 0); (50, 0); (51, 0); (52, 0); (53, 0); (54, 0); (55, 0); (56, 0); (57, 0); (58, 0); (59, 0); (63, 0); (64, 0); (65, 0); (66, 0); (67, 0); (68, 0); (69, 0); (70, 0); (71, 0); (72, 0); (73, 0); (74, 0); (75, 0); (76, 0); (77, 0); (78, 0); (79, 0); (80, 0); (81, 0); (82, 0); (83, 0); (88, 0); (89, 0); (90, 0); (91, 0); (92, 0); (93, 0); (94, 0); (95, 0); (96, 0); (103, 0); (104, 0); (105, 0); (106, 0)];
  [(18, 1)];
  [(19, 1); (22, 0); (23, 0); (109, 0); (110, 0)];
  [(4, 1)];
  [(44, 1); (54, 1); (83, 1); (112, 0)];
  [(45, 1); (66, 1); (67, 1); (68, 1); (69, 1); (70, 1); (71, 1); (72, 1); (73, 1); (74, 1); (75, 1); (76, 1); (77, 1); (78, 1)];
  [(46, 1)];
  [(47, 1)];
  [(48, 1)];
  [(49, 1)];
  [(50, 1)];
  [(33, 0); (51, 1); (53, 0); (54, 0); (55, 0); (56, 0); (57, 0); (58, 0); (59, 0); (64, 0); (65, 0); (66, 0); (67, 0); (68, 0); (69, 0); (70, 0); (71, 0); (72, 0); (73, 0); (74, 0); (75, 0); (76, 0); (77, 0); (78, 0); (79, 0); (80, 0); (81, 0); (82, 0); (83, 0); (85, 0); (88, 0); (89, 0); (90, 0); (91, 0); (92, 0); (93, 0); (94, 0); (95, 0); (96, 0); (103, 0); (104, 0); (105, 0); (106, 0)];
  [(33, 0); (52, 1); (53, 0); (54, 0); (55, 0); (56, 0); (57, 0); (58, 0); (59, 0); (64, 0); (65, 0); (66, 0); (67, 0); (68, 0); (69, 0); (70, 0); (71, 0); (72, 0); (73, 0); (74, 0); (75, 0); (76, 0); (77, 0); (78, 0); (79, 0); (80, 0); (81, 0); (82, 0); (83, 0); (85, 0); (88, 0); (89, 0); (90, 0); (91, 0); (92, 0); (93, 0); (94, 0); (95, 0); (96, 0); (103, 0); (104, 0); (105, 0); (106, 0)];
  [(6, 1)];
  [(7, 1)];
  [(53, 1); (57, 1)];
  [(64, 1)];
  [(33, 0); (53, 0); (54, 0); (55, 0); (56, 0); (57, 0); (58, 0); (59, 0); (64, 0); (65, 0); (65, 1); (66, 0); (67, 0); (68, 0); (69, 0); (70, 0); (71, 0); (72, 0); (73, 0); (74, 0); (75, 0); (76, 0); (77, 0); (78, 0); (79, 0); (80, 0); (81, 0); (82, 0); (83, 0); (85, 0); (86, 0); (87, 0); (88, 0); (89, 0); (90, 0); (91, 0); (92, 0); (93, 0); (94, 0); (95, 0); (96, 0); (103, 0); (104, 0); (105, 0); (106, 0)];
  [(33, 0); (53, 0); (54, 0); (55, 0); (56, 0); (57, 0); (58, 0); (59, 0); (64, 0); (65, 0); (66, 0); (67, 0); (68, 0); (69, 0); (70, 0); (71, 0); (72, 0); (73, 0); (79, 0); (79, 1); (80, 0); (81, 0); (82, 0); (83, 0); (88, 0); (89, 0); (90, 0); (91, 0); (92, 0); (93, 0); (94, 0); (95, 0); (96, 0); (103, 0); (104, 0); (105, 0); (106, 0)];
  [(80, 1)];
  [(81, 1); (106, 0)];
  [(82, 1)];
  [(28, 1); (33, 0); (53, 0); (54, 0); (55, 0); (56, 0); (57, 0); (58, 0); (59, 0); (64, 0); (65, 0); (66, 0); (67, 0); (68, 0); (69, 0); (70, 0); (71, 0); (72, 0); (73, 0); (74, 0); (75, 0); (76, 0); (77, 0); (78, 0); (79, 0); (80, 0); (81, 0); (82, 0); (83, 0); (88, 0); (89, 0); (90, 0); (91, 0); (92, 0); (93, 0); (94, 0); (95, 0); (96, 0); (103, 0); (104, 0); (105, 0); (106, 0)];
  [(33, 0); (35, 1); (37, 1); (53, 0); (54, 0); (55, 0); (56, 0); (57, 0); (58, 0); (59, 0); (64, 0); (65, 0); (66, 0); (67, 0); (68, 0); (69, 0); (70, 0); (71, 0); (72, 0); (73, 0); (74, 0); (75, 0); (76, 0); (77, 0); (78, 0); (79, 0); (80, 0); (81, 0); (82, 0); (83, 0); (88, 0); (89, 0); (90, 0); (91, 0); (92, 0); (93, 0); (94, 0); (95, 0); (96, 0); (103, 0); (104, 0); (105, 0); (106, 0)];
  [(33, 0); (39, 1); (53, 0); (54, 0); (55, 0); (56, 0); (57, 0); (58, 0); (59, 0); (64, 0); (65, 0); (66, 0); (67, 0); (68, 0); (69, 0); (70, 0); (71, 0); (72, 0); (73, 0); (74, 0); (75, 0); (76, 0); (77, 0); (78, 0); (79, 0); (80, 0); (81, 0); (82, 0); (83, 0); (88, 0); (89, 0); (90, 0); (91, 0); (92, 0); (93, 0); (94, 0); (95, 0); (96, 0); (103, 0); (104, 0); (105, 0); (106, 0)];
  [(17, 0); (18, 0); (19, 0); (28, 0); (33, 0); (35, 0); (37, 0); (39, 0); (44, 0); (45, 0); (46, 0); (47, 0); (48, 0); (49, 0); (50, 0); (51, 0); (52, 0); (53, 0); (54, 0); (55, 0); (56, 0); (57, 0); (58, 0); (59, 0); (63, 0); (63, 1); (64, 0); (65, 0); (66, 0); (67, 0); (68, 0); (69, 0); (70, 0); (71, 0); (72, 0); (73, 0); (74, 0); (75, 0); (76, 0); (77, 0); (78, 0); (79, 0); (80, 0); (81, 0); (82, 0); (83, 0); (88, 0); (89, 0); (90, 0); (91, 0); (92, 0); (93, 0); (94, 0); (95, 0); (96, 0); (103, 0); (104, 0); (105, 0); (106, 0)];
  [(12, 1); (14, 1); (15, 1)];
  [(55, 1); (56, 1)];
  [(58, 1); (59, 1); (60, 0); (61, 0)];
  [(88, 1)];
  [(89, 1)];
  [(33, 0); (53, 0); (54, 0); (55, 0); (56, 0); (57, 0); (58, 0); (59, 0); (64, 0); (65, 0); (79, 0); (80, 0); (81, 0); (82, 0); (83, 0); (88, 0); (89, 0); (90, 0); (90, 1); (91, 0); (92, 0); (93, 0); (94, 0); (95, 0); (96, 0); (103, 0); (104, 0); (105, 0); (106, 0)];
  [(33, 0); (53, 0); (54, 0); (55, 0); (56, 0); (57, 0); (58, 0); (59, 0); (64, 0); (65, 0); (79, 0); (80, 0); (81, 0); (82, 0); (83, 0); (88, 0); (89, 0); (90, 0); (91, 0); (91, 1); (92, 0); (93, 0); (94, 0); (95, 0); (96, 0); (103, 0); (104, 0); (105, 0); (106, 0)];
  [(92, 1)];
  [(93, 1)];
  [(94, 1)];
  [(95, 1)];
  [(96, 1)];
  [(103, 1); (104, 1); (105, 1)];
  [(33, 1)];
  [(9, 1)];
  [(106, 1)];
  [(3, 2); (19, 1); (22, 0); (23, 0); (109, 0); (110, 0)];
  [(5, 2)];
  [(17, 1)];
  [(19, 2); (21, 0); (28, 0); (33, 0); (35, 0); (37, 0); (39, 0); (44, 0); (45, 0); (46, 0); (47, 0); (48, 0); (49, 0); (50, 0); (51, 0); (52, 0); (53, 0); (54, 0); (55, 0); (56, 0); (57, 0); (58, 0); (59, 0); (63, 0); (64, 0); (65, 0); (66, 0); (67, 0); (68, 0); (69, 0); (70, 0); (71, 0); (72, 0); (73, 0); (74, 0); (75, 0); (76, 0); (77, 0); (78, 0); (79, 0); (80, 0); (81, 0); (82, 0); (83, 0); (88, 0); (89, 0); (90, 0); (91, 0); (92, 0); (93, 0); (94, 0); (95, 0); (96, 0); (103, 0); (104, 0); (105, 0); (106, 0)];
  [(22, 1)];
  [(23, 1)];
  [(109, 1)];
  [(110, 1)];
  [(33, 0); (44, 2); (53, 0); (54, 0); (55, 0); (56, 0); (57, 0); (58, 0); (59, 0); (64, 0); (65, 0); (66, 0); (67, 0); (68, 0); (69, 0); (70, 0); (71, 0); (72, 0); (73, 0); (74, 0); (75, 0); (76, 0); (77, 0); (78, 0); (79, 0); (80, 0); (81, 0); (82, 0); (83, 0); (88, 0); (89, 0); (90, 0); (91, 0); (92, 0); (93, 0); (94, 0); (95, 0); (96, 0); (103, 0); (104, 0); (105, 0); (106, 0)];
  [(54, 2); (55, 0); (56, 0); (57, 0); (58, 0); (59, 0)];
  [(112, 1)];
  [(33, 0); (53, 0); (54, 0); (55, 0); (56, 0); (57, 0); (58, 0); (59, 0); (64, 0); (65, 0); (66, 2); (68, 0); (69, 0); (70, 0); (79, 0); (80, 0); (81, 0); (82, 0); (83, 0); (88, 0); (89, 0); (90, 0); (91, 0); (92, 0); (93, 0); (94, 0); (95, 0); (96, 0); (103, 0); (104, 0); (105, 0); (106, 0)];
  [(33, 0); (53, 0); (54, 0); (55, 0); (56, 0); (57, 0); (58, 0); (59, 0); (64, 0); (65, 0); (67, 2); (68, 0); (69, 0); (70, 0); (79, 0); (80, 0); (81, 0); (82, 0); (83, 0); (88, 0); (89, 0); (90, 0); (91, 0); (92, 0); (93, 0); (94, 0); (95, 0); (96, 0); (103, 0); (104, 0); (105, 0); (106, 0)];
  [(33, 0); (53, 0); (54, 0); (55, 0); (56, 0); (57, 0); (58, 0); (59, 0); (64, 0); (65, 0); (68, 2); (79, 0); (80, 0); (81, 0); (82, 0); (83, 0); (88, 0); (89, 0); (90, 0); (91, 0); (92, 0); (93, 0); (94, 0); (95, 0); (96, 0); (103, 0); (104, 0); (105, 0); (106, 0)];
  [(33, 0); (53, 0); (54, 0); (55, 0); (56, 0); (57, 0); (58, 0); (59, 0); (64, 0); (65, 0); (69, 2); (79, 0); (80, 0); (81, 0); (82, 0); (83, 0); (88, 0); (89, 0); (90, 0); (91, 0); (92, 0); (93, 0); (94, 0); (95, 0); (96, 0); (103, 0); (104, 0); (105, 0); (106, 0)];
  [(33, 0); (53, 0); (54, 0); (55, 0); (56, 0); (57, 0); (58, 0); (59, 0); (64, 0); (65, 0); (70, 2); (79, 0); (80, 0); (81, 0); (82, 0); (83, 0); (88, 0); (89, 0); (90, 0); (91, 0); (92, 0); (93, 0); (94, 0); (95, 0); (96, 0); (103, 0); (104, 0); (105, 0); (106, 0)];
  [(33, 0); (53, 0); (54, 0); (55, 0); (56, 0); (57, 0); (58, 0); (59, 0); (64, 0); (65, 0); (66, 0); (67, 0); (68, 0); (69, 0); (70, 0); (71, 2); (79, 0); (80, 0); (81, 0); (82, 0); (83, 0); (88, 0); (89, 0); (90, 0); (91, 0); (92, 0); (93, 0); (94, 0); (95, 0); (96, 0); (103, 0); (104, 0); (105, 0); (106, 0)];
  [(33, 0); (53, 0); (54, 0); (55, 0); (56, 0); (57, 0); (58, 0); (59, 0); (64, 0); (65, 0); (66, 0); (67, 0); (68, 0); (69, 0); (70, 0); (72, 2); (79, 0); (80, 0); (81, 0); (82, 0); (83, 0); (88, 0); (89, 0); (90, 0); (91, 0); (92, 0); (93, 0); (94, 0); (95, 0); (96, 0); (103, 0); (104, 0); (105, 0); (106, 0)];
  [(33, 0); (53, 0); (54, 0); (55, 0); (56, 0); (57, 0); (58, 0); (59, 0); (64, 0); (65, 0); (66, 0); (67, 0); (68, 0); (69, 0); (70, 0); (71, 0); (72, 0); (73, 2); (79, 0); (80, 0); (81, 0); (82, 0); (83, 0); (88, 0); (89, 0); (90, 0); (91, 0); (92, 0); (93, 0); (94, 0); (95, 0); (96, 0); (103, 0); (104, 0); (105, 0); (106, 0)];
  [(33, 0); (53, 0); (54, 0); (55, 0); (56, 0); (57, 0); (58, 0); (59, 0); (64, 0); (65, 0); (66, 0); (67, 0); (68, 0); (69, 0); (70, 0); (71, 0); (72, 0); (73, 0); (74, 2); (75, 0); (76, 0); (77, 0); (78, 0); (79, 0); (80, 0); (81, 0); (82, 0); (83, 0); (88, 0); (89, 0); (90, 0); (91, 0); (92, 0); (93, 0); (94, 0); (95, 0); (96, 0); (103, 0); (104, 0); (105, 0); (106, 0)];
  [(33, 0); (53, 0); (54, 0); (55, 0); (56, 0); (57, 0); (58, 0); (59, 0); (64, 0); (65, 0); (66, 0); (67, 0); (68, 0); (69, 0); (70, 0); (71, 0); (72, 0); (73, 0); (75, 2); (76, 0); (77, 0); (78, 0); (79, 0); (80, 0); (81, 0); (82, 0); (83, 0); (88, 0); (89, 0); (90, 0); (91, 0); (92, 0); (93, 0); (94, 0); (95, 0); (96, 0); (103, 0); (104, 0); (105, 0); (106, 0)];
  [(33, 0); (53, 0); (54, 0); (55, 0); (56, 0); (57, 0); (58, 0); (59, 0); (64, 0); (65, 0); (66, 0); (67, 0); (68, 0); (69, 0); (70, 0); (71, 0); (72, 0); (73, 0); (76, 2); (77, 0); (78, 0); (79, 0); (80, 0); (81, 0); (82, 0); (83, 0); (88, 0); (89, 0); (90, 0); (91, 0); (92, 0); (93, 0); (94, 0); (95, 0); (96, 0); (103, 0); (104, 0); (105, 0); (106, 0)];
  [(33, 0); (53, 0); (54, 0); (55, 0); (56, 0); (57, 0); (58, 0); (59, 0); (64, 0); (65, 0); (66, 0); (67, 0); (68, 0); (69, 0); (70, 0); (71, 0); (72, 0); (73, 0); (77, 2); (78, 0); (79, 0); (80, 0); (81, 0); (82, 0); (83, 0); (88, 0); (89, 0); (90, 0); (91, 0); (92, 0); (93, 0); (94, 0); (95, 0); (96, 0); (103, 0); (104, 0); (105, 0); (106, 0)];
  [(33, 0); (53, 0); (54, 0); (55, 0); (56, 0); (57, 0); (58, 0); (59, 0); (64, 0); (65, 0); (66, 0); (67, 0); (68, 0); (69, 0); (70, 0); (71, 0); (72, 0); (73, 0); (78, 2); (79, 0); (80, 0); (81, 0); (82, 0); (83, 0); (88, 0); (89, 0); (90, 0); (91, 0); (92, 0); (93, 0); (94, 0); (95, 0); (96, 0); (103, 0); (104, 0); (105, 0); (106, 0)];
  [(51, 2)];
  [(66, 1); (67, 1); (68, 1); (69, 1); (70, 1); (71, 1); (72, 1); (73, 1); (74, 1); (75, 1); (76, 1); (77, 1); (78, 1); (85, 1)];
  [(54, 1); (83, 1); (112, 0)];
  [(52, 2)];
  [(33, 0); (53, 0); (54, 0); (55, 0); (56, 0); (57, 0); (57, 2); (58, 0); (59, 0); (64, 0); (65, 0); (66, 0); (67, 0); (68, 0); (69, 0); (70, 0); (71, 0); (72, 0); (73, 0); (74, 0); (75, 0); (76, 0); (77, 0); (78, 0); (79, 0); (80, 0); (81, 0); (82, 0); (83, 0); (88, 0); (89, 0); (90, 0); (91, 0); (92, 0); (93, 0); (94, 0); (95, 0); (96, 0); (103, 0); (104, 0); (105, 0); (106, 0)];
  [(65, 2); (87, 1); (111, 0)];
  [(86, 1)];
  [(66, 1); (67, 1); (68, 1); (69, 1); (70, 1); (71, 1); (72, 1); (73, 1); (79, 2)];
  [(81, 2)];
  [(28, 2); (66, 1); (67, 1); (68, 1); (69, 1); (70, 1); (71, 1); (72, 1); (73, 1); (74, 1); (75, 1); (76, 1); (77, 1); (78, 1)];
  [(35, 2)];
  [(37, 2); (66, 1); (67, 1); (68, 1); (69, 1); (70, 1); (71, 1); (72, 1); (73, 1); (74, 1); (75, 1); (76, 1); (77, 1); (78, 1)];
  [(39, 2); (66, 1); (67, 1); (68, 1); (69, 1); (70, 1); (71, 1); (72, 1); (73, 1); (74, 1); (75, 1); (76, 1); (77, 1); (78, 1)];
  [(19, 1); (22, 0); (23, 0); (63, 2); (109, 0); (110, 0)];
  [(12, 2); (107, 0); (108, 0)];
  [(14, 2)];
  [(15, 2)];
  [(33, 0); (53, 0); (54, 0); (55, 0); (56, 0); (56, 2); (57, 0); (58, 0); (59, 0); (64, 0); (65, 0); (66, 0); (67, 0); (68, 0); (69, 0); (70, 0); (71, 0); (72, 0); (73, 0); (74, 0); (75, 0); (76, 0); (77, 0); (78, 0); (79, 0); (80, 0); (81, 0); (82, 0); (83, 0); (85, 0); (86, 0); (87, 0); (88, 0); (89, 0); (90, 0); (91, 0); (92, 0); (93, 0); (94, 0); (95, 0); (96, 0); (103, 0); (104, 0); (105, 0); (106, 0)];
  [(58, 2)];
  [(33, 0); (53, 0); (54, 0); (55, 0); (56, 0); (57, 0); (58, 0); (59, 0); (59, 2); (64, 0); (65, 0); (66, 0); (67, 0); (68, 0); (69, 0); (70, 0); (71, 0); (72, 0); (73, 0); (74, 0); (75, 0); (76, 0); (77, 0); (78, 0); (79, 0); (80, 0); (81, 0); (82, 0); (83, 0); (88, 0); (89, 0); (90, 0); (91, 0); (92, 0); (93, 0); (94, 0); (95, 0); (96, 0); (103, 0); (104, 0); (105, 0); (106, 0)];
  [(60, 1)];
  [(61, 1)];
  [(90, 2)];
  [(91, 2)];
  [(103, 2); (104, 2)];
  [(33, 0); (53, 0); (54, 0); (55, 0); (56, 0); (57, 0); (58, 0); (59, 0); (64, 0); (65, 0); (66, 0); (67, 0); (68, 0); (69, 0); (70, 0); (71, 0); (72, 0); (73, 0); (74, 0); (75, 0); (76, 0); (77, 0); (78, 0); (79, 0); (80, 0); (81, 0); (82, 0); (83, 0); (85, 0); (86, 0); (87, 0); (88, 0); (89, 0); (90, 0); (91, 0); (92, 0); (93, 0); (94, 0); (95, 0); (96, 0); (103, 0); (104, 0); (105, 0); (105, 2); (106, 0)];
  [(33, 0); (33, 2); (53, 0); (54, 0); (55, 0); (56, 0); (57, 0); (58, 0); (59, 0); (64, 0); (65, 0); (66, 0); (67, 0); (68, 0); (69, 0); (70, 0); (71, 0); (72, 0); (73, 0); (74, 0); (75, 0); (76, 0); (77, 0); (78, 0); (79, 0); (80, 0); (81, 0); (82, 0); (83, 0); (88, 0); (89, 0); (90, 0); (91, 0); (92, 0); (93, 0); (94, 0); (95, 0); (96, 0); (103, 0); (104, 0); (105, 0); (106, 0)];
  [(19, 3)];
  [(21, 1)];
  [(44, 3); (66, 1); (67, 1); (68, 1); (69, 1); (70, 1); (71, 1); (72, 1); (73, 1); (74, 1); (75, 1); (76, 1); (77, 1); (78, 1)];
  [(54, 3); (57, 1)];
  [(66, 3); (68, 1); (69, 1); (70, 1)];
  [(67, 3); (68, 1); (69, 1); (70, 1)];
  [(68, 3)];
  [(69, 3)];
  [(70, 3)];
  [(66, 1); (67, 1); (68, 1); (69, 1); (70, 1); (71, 3)];
  [(66, 1); (67, 1); (68, 1); (69, 1); (70, 1); (72, 3)];
  [(66, 1); (67, 1); (68, 1); (69, 1); (70, 1); (71, 1); (72, 1); (73, 3)];
  [(66, 1); (67, 1); (68, 1); (69, 1); (70, 1); (71, 1); (72, 1); (73, 1); (74, 3); (75, 1); (76, 1); (77, 1); (78, 1)];
  [(66, 1); (67, 1); (68, 1); (69, 1); (70, 1); (71, 1); (72, 1); (73, 1); (75, 3); (76, 1); (77, 1); (78, 1)];
  [(66, 1); (67, 1); (68, 1); (69, 1); (70, 1); (71, 1); (72, 1); (73, 1); (76, 3); (77, 1); (78, 1)];
  [(66, 1); (67, 1); (68, 1); (69, 1); (70, 1); (71, 1); (72, 1); (73, 1); (77, 3); (78, 1)];
  [(66, 1); (67, 1); (68, 1); (69, 1); (70, 1); (71, 1); (72, 1); (73, 1); (78, 3)];
  [(57, 3); (66, 1); (67, 1); (68, 1); (69, 1); (70, 1); (71, 1); (72, 1); (73, 1); (74, 1); (75, 1); (76, 1); (77, 1); (78, 1)];
  [(65, 3)];
  [(33, 0); (53, 0); (54, 0); (55, 0); (56, 0); (57, 0); (58, 0); (59, 0); (64, 0); (65, 0); (66, 0); (67, 0); (68, 0); (69, 0); (70, 0); (71, 0); (72, 0); (73, 0); (74, 0); (75, 0); (76, 0); (77, 0); (78, 0); (79, 0); (80, 0); (81, 0); (82, 0); (83, 0); (85, 0); (87, 2); (88, 0); (89, 0); (90, 0); (91, 0); (92, 0); (93, 0); (94, 0); (95, 0); (96, 0); (103, 0); (104, 0); (105, 0); (106, 0)];
  [(111, 1)];
  [(17, 0); (18, 0); (19, 0); (28, 0); (28, 3); (33, 0); (35, 0); (37, 0); (39, 0); (44, 0); (45, 0); (46, 0); (47, 0); (48, 0); (49, 0); (50, 0); (51, 0); (52, 0); (53, 0); (54, 0); (55, 0); (56, 0); (57, 0); (58, 0); (59, 0); (63, 0); (64, 0); (65, 0); (66, 0); (67, 0); (68, 0); (69, 0); (70, 0); (71, 0); (72, 0); (73, 0); (74, 0); (75, 0); (76, 0); (77, 0); (78, 0); (79, 0); (80, 0); (81, 0); (82, 0); (83, 0); (88, 0); (89, 0); (90, 0); (91, 0); (92, 0); (93, 0); (94, 0); (95, 0); (96, 0); (103, 0); (104, 0); (105, 0); (106, 0)];
  [(35, 3)];
  [(33, 0); (37, 3); (53, 0); (54, 0); (55, 0); (56, 0); (57, 0); (58, 0); (59, 0); (64, 0); (65, 0); (66, 0); (67, 0); (68, 0); (69, 0); (70, 0); (71, 0); (72, 0); (73, 0); (74, 0); (75, 0); (76, 0); (77, 0); (78, 0); (79, 0); (80, 0); (81, 0); (82, 0); (83, 0); (88, 0); (89, 0); (90, 0); (91, 0); (92, 0); (93, 0); (94, 0); (95, 0); (96, 0); (103, 0); (104, 0); (105, 0); (106, 0)];
  [(39, 3)];
  [(63, 3)];
  [(11, 0); (12, 3); (108, 1); (111, 0)];
  [(107, 1)];
  [(14, 3)];
  [(15, 3)];
  [(56, 3); (87, 1); (111, 0)];
  [(59, 3); (66, 1); (67, 1); (68, 1); (69, 1); (70, 1); (71, 1); (72, 1); (73, 1); (74, 1); (75, 1); (76, 1); (77, 1); (78, 1)];
  [(33, 0); (53, 0); (54, 0); (55, 0); (56, 0); (57, 0); (58, 0); (59, 0); (64, 0); (65, 0); (66, 0); (67, 0); (68, 0); (69, 0); (70, 0); (71, 0); (72, 0); (73, 0); (74, 0); (75, 0); (76, 0); (77, 0); (78, 0); (79, 0); (80, 0); (81, 0); (82, 0); (83, 0); (85, 0); (86, 0); (87, 0); (88, 0); (89, 0); (90, 0); (91, 0); (92, 0); (93, 0); (94, 0); (95, 0); (96, 0); (103, 0); (104, 0); (104, 3); (105, 0); (106, 0)];
  [(87, 1); (105, 3); (111, 0)];
  [(33, 3); (66, 1); (67, 1); (68, 1); (69, 1); (70, 1); (71, 1); (72, 1); (73, 1); (74, 1); (75, 1); (76, 1); (77, 1); (78, 1); (111, 0)];
  [(57, 4)];
  [(87, 3)];
  [(19, 1); (22, 0); (23, 0); (28, 4); (30, 0); (109, 0); (110, 0)];
  [(33, 0); (35, 4); (40, 0); (41, 0); (42, 0); (43, 0); (53, 0); (54, 0); (55, 0); (56, 0); (57, 0); (58, 0); (59, 0); (103, 0); (104, 0); (105, 0)];
  [(37, 4); (66, 1); (67, 1); (68, 1); (69, 1); (70, 1); (71, 1); (72, 1); (73, 1); (74, 1); (75, 1); (76, 1); (77, 1); (78, 1)];
  [(17, 0); (18, 0); (19, 0); (28, 0); (33, 0); (35, 0); (37, 0); (39, 0); (39, 4); (44, 0); (45, 0); (46, 0); (47, 0); (48, 0); (49, 0); (50, 0); (51, 0); (52, 0); (53, 0); (54, 0); (55, 0); (56, 0); (57, 0); (58, 0); (59, 0); (63, 0); (64, 0); (65, 0); (66, 0); (67, 0); (68, 0); (69, 0); (70, 0); (71, 0); (72, 0); (73, 0); (74, 0); (75, 0); (76, 0); (77, 0); (78, 0); (79, 0); (80, 0); (81, 0); (82, 0); (83, 0); (88, 0); (89, 0); (90, 0); (91, 0); (92, 0); (93, 0); (94, 0); (95, 0); (96, 0); (103, 0); (104, 0); (105, 0); (106, 0)];
  [(17, 0); (18, 0); (19, 0); (28, 0); (33, 0); (35, 0); (37, 0); (39, 0); (44, 0); (45, 0); (46, 0); (47, 0); (48, 0); (49, 0); (50, 0); (51, 0); (52, 0); (53, 0); (54, 0); (55, 0); (56, 0); (57, 0); (58, 0); (59, 0); (63, 0); (63, 4); (64, 0); (65, 0); (66, 0); (67, 0); (68, 0); (69, 0); (70, 0); (71, 0); (72, 0); (73, 0); (74, 0); (75, 0); (76, 0); (77, 0); (78, 0); (79, 0); (80, 0); (81, 0); (82, 0); (83, 0); (88, 0); (89, 0); (90, 0); (91, 0); (92, 0); (93, 0); (94, 0); (95, 0); (96, 0); (103, 0); (104, 0); (105, 0); (106, 0)];
  [(12, 4); (109, 0)];
  [(108, 2)];
  [(11, 1)];
  [(14, 4); (97, 0); (98, 0); (99, 0); (101, 0); (102, 0)];
  [(15, 4); (97, 0); (98, 0); (99, 0); (101, 0); (102, 0)];
  [(56, 4)];
  [(59, 4)];
  [(87, 1); (104, 4); (111, 0)];
  [(105, 4)];
  [(33, 0); (33, 4); (53, 0); (54, 0); (55, 0); (56, 0); (57, 0); (58, 0); (59, 0); (64, 0); (65, 0); (66, 0); (67, 0); (68, 0); (69, 0); (70, 0); (71, 0); (72, 0); (73, 0); (74, 0); (75, 0); (76, 0); (77, 0); (78, 0); (79, 0); (80, 0); (81, 0); (82, 0); (83, 0); (88, 0); (89, 0); (90, 0); (91, 0); (92, 0); (93, 0); (94, 0); (95, 0); (96, 0); (103, 0); (104, 0); (105, 0); (106, 0)];
  [(28, 5); (32, 0)];
  [(30, 1); (33, 0); (53, 0); (54, 0); (55, 0); (56, 0); (57, 0); (58, 0); (59, 0); (64, 0); (65, 0); (66, 0); (67, 0); (68, 0); (69, 0); (70, 0); (71, 0); (72, 0); (73, 0); (74, 0); (75, 0); (76, 0); (77, 0); (78, 0); (79, 0); (80, 0); (81, 0); (82, 0); (83, 0); (88, 0); (89, 0); (90, 0); (91, 0); (92, 0); (93, 0); (94, 0); (95, 0); (96, 0); (103, 0); (104, 0); (105, 0); (106, 0)];
  [(35, 5)];
  [(40, 1); (54, 1); (112, 0)];
  [(41, 1)];
  [(42, 1); (103, 0); (104, 0); (105, 0)];
  [(43, 1)];
  [(37, 5)];
  [(19, 1); (22, 0); (23, 0); (39, 5); (109, 0); (110, 0)];
  [(19, 1); (22, 0); (23, 0); (63, 5); (109, 0); (110, 0)];
  [(12, 5)];
  [(108, 3)];
  [(14, 5); (102, 1); (111, 0)];
  [(99, 1); (101, 1)];
  [(97, 1)];
  [(98, 1)];
  [(15, 5); (102, 1); (111, 0)];
  [(104, 5)];
  [(33, 5); (66, 1); (67, 1); (68, 1); (69, 1); (70, 1); (71, 1); (72, 1); (73, 1); (74, 1); (75, 1); (76, 1); (77, 1); (78, 1); (111, 0)];
  [(28, 6)];
  [(17, 0); (18, 0); (19, 0); (28, 0); (32, 1); (33, 0); (35, 0); (37, 0); (39, 0); (44, 0); (45, 0); (46, 0); (47, 0); (48, 0); (49, 0); (50, 0); (51, 0); (52, 0); (53, 0); (54, 0); (55, 0); (56, 0); (57, 0); (58, 0); (59, 0); (63, 0); (64, 0); (65, 0); (66, 0); (67, 0); (68, 0); (69, 0); (70, 0); (71, 0); (72, 0); (73, 0); (74, 0); (75, 0); (76, 0); (77, 0); (78, 0); (79, 0); (80, 0); (81, 0); (82, 0); (83, 0); (88, 0); (89, 0); (90, 0); (91, 0); (92, 0); (93, 0); (94, 0); (95, 0); (96, 0); (103, 0); (104, 0); (105, 0); (106, 0)];
  [(30, 2); (66, 1); (67, 1); (68, 1); (69, 1); (70, 1); (71, 1); (72, 1); (73, 1); (74, 1); (75, 1); (76, 1); (77, 1); (78, 1)];
  [(35, 6)];
  [(42, 2)];
  [(17, 0); (18, 0); (19, 0); (28, 0); (33, 0); (35, 0); (37, 0); (37, 6); (39, 0); (44, 0); (45, 0); (46, 0); (47, 0); (48, 0); (49, 0); (50, 0); (51, 0); (52, 0); (53, 0); (54, 0); (55, 0); (56, 0); (57, 0); (58, 0); (59, 0); (63, 0); (64, 0); (65, 0); (66, 0); (67, 0); (68, 0); (69, 0); (70, 0); (71, 0); (72, 0); (73, 0); (74, 0); (75, 0); (76, 0); (77, 0); (78, 0); (79, 0); (80, 0); (81, 0); (82, 0); (83, 0); (88, 0); (89, 0); (90, 0); (91, 0); (92, 0); (93, 0); (94, 0); (95, 0); (96, 0); (103, 0); (104, 0); (105, 0); (106, 0)];
  [(39, 6)];
  [(63, 6)];
  [(11, 0); (14, 6)];
  [(97, 0); (98, 0); (99, 0); (102, 2)];
  [(88, 0); (89, 0); (90, 0); (91, 0); (92, 0); (93, 0); (94, 0); (95, 0); (96, 0); (99, 2); (106, 0)];
  [(98, 2)];
  [(11, 0); (15, 6)];
  [(33, 0); (33, 6); (53, 0); (54, 0); (55, 0); (56, 0); (57, 0); (58, 0); (59, 0); (64, 0); (65, 0); (66, 0); (67, 0); (68, 0); (69, 0); (70, 0); (71, 0); (72, 0); (73, 0); (74, 0); (75, 0); (76, 0); (77, 0); (78, 0); (79, 0); (80, 0); (81, 0); (82, 0); (83, 0); (88, 0); (89, 0); (90, 0); (91, 0); (92, 0); (93, 0); (94, 0); (95, 0); (96, 0); (103, 0); (104, 0); (105, 0); (106, 0)];
  [(28, 7)];
  [(19, 1); (22, 0); (23, 0); (32, 2); (109, 0); (110, 0)];
  [(17, 0); (18, 0); (19, 0); (28, 0); (30, 3); (33, 0); (35, 0); (37, 0); (39, 0); (44, 0); (45, 0); (46, 0); (47, 0); (48, 0); (49, 0); (50, 0); (51, 0); (52, 0); (53, 0); (54, 0); (55, 0); (56, 0); (57, 0); (58, 0); (59, 0); (63, 0); (64, 0); (65, 0); (66, 0); (67, 0); (68, 0); (69, 0); (70, 0); (71, 0); (72, 0); (73, 0); (74, 0); (75, 0); (76, 0); (77, 0); (78, 0); (79, 0); (80, 0); (81, 0); (82, 0); (83, 0); (88, 0); (89, 0); (90, 0); (91, 0); (92, 0); (93, 0); (94, 0); (95, 0); (96, 0); (103, 0); (104, 0); (105, 0); (106, 0)];
  [(17, 0); (18, 0); (19, 0); (28, 0); (33, 0); (35, 0); (35, 7); (37, 0); (39, 0); (44, 0); (45, 0); (46, 0); (47, 0); (48, 0); (49, 0); (50, 0); (51, 0); (52, 0); (53, 0); (54, 0); (55, 0); (56, 0); (57, 0); (58, 0); (59, 0); (63, 0); (64, 0); (65, 0); (66, 0); (67, 0); (68, 0); (69, 0); (70, 0); (71, 0); (72, 0); (73, 0); (74, 0); (75, 0); (76, 0); (77, 0); (78, 0); (79, 0); (80, 0); (81, 0); (82, 0); (83, 0); (88, 0); (89, 0); (90, 0); (91, 0); (92, 0); (93, 0); (94, 0); (95, 0); (96, 0); (103, 0); (104, 0); (105, 0); (106, 0)];
  [(42, 3)];
  [(19, 1); (22, 0); (23, 0); (37, 7); (109, 0); (110, 0)];
  [(14, 7)];
  [(99, 1); (102, 3)];
  [(99, 3)];
  [(15, 7); (25, 0); (26, 0); (27, 0)];
  [(33, 7); (66, 1); (67, 1); (68, 1); (69, 1); (70, 1); (71, 1); (72, 1); (73, 1); (74, 1); (75, 1); (76, 1); (77, 1); (78, 1)];
  [(19, 1); (22, 0); (23, 0); (30, 0); (30, 4); (109, 0); (110, 0)];
  [(19, 1); (22, 0); (23, 0); (35, 8); (109, 0); (110, 0)];
  [(37, 8)];
  [(14, 8); (25, 0); (26, 0); (27, 0)];
  [(15, 8); (17, 0); (18, 0); (19, 0); (28, 0); (33, 0); (35, 0); (37, 0); (39, 0); (44, 0); (45, 0); (46, 0); (47, 0); (48, 0); (49, 0); (50, 0); (51, 0); (52, 0); (53, 0); (54, 0); (55, 0); (56, 0); (57, 0); (58, 0); (59, 0); (63, 0); (64, 0); (65, 0); (66, 0); (67, 0); (68, 0); (69, 0); (70, 0); (71, 0); (72, 0); (73, 0); (74, 0); (75, 0); (76, 0); (77, 0); (78, 0); (79, 0); (80, 0); (81, 0); (82, 0); (83, 0); (88, 0); (89, 0); (90, 0); (91, 0); (92, 0); (93, 0); (94, 0); (95, 0); (96, 0); (103, 0); (104, 0); (105, 0); (106, 0)];
  [(25, 1); (27, 1)];
  [(26, 1); (107, 0); (108, 0)];
  [(33, 8)];
  [(30, 5)];
  [(35, 9)];
  [(14, 9); (17, 0); (18, 0); (19, 0); (28, 0); (33, 0); (35, 0); (37, 0); (39, 0); (44, 0); (45, 0); (46, 0); (47, 0); (48, 0); (49, 0); (50, 0); (51, 0); (52, 0); (53, 0); (54, 0); (55, 0); (56, 0); (57, 0); (58, 0); (59, 0); (63, 0); (64, 0); (65, 0); (66, 0); (67, 0); (68, 0); (69, 0); (70, 0); (71, 0); (72, 0); (73, 0); (74, 0); (75, 0); (76, 0); (77, 0); (78, 0); (79, 0); (80, 0); (81, 0); (82, 0); (83, 0); (88, 0); (89, 0); (90, 0); (91, 0); (92, 0); (93, 0); (94, 0); (95, 0); (96, 0); (103, 0); (104, 0); (105, 0); (106, 0)];
  [(15, 9); (19, 1); (22, 0); (23, 0); (109, 0); (110, 0)];
  [(27, 2); (107, 0); (108, 0)];
  [(26, 2); (108, 1); (109, 0); (111, 0)];
  [(14, 10); (19, 1); (22, 0); (23, 0); (109, 0); (110, 0)];
  [(15, 10)];
  [(27, 3); (108, 1); (109, 0); (111, 0)];
  [(26, 3)];
  [(14, 11)];
  [(27, 4)]].

(** For every state the nonterminals that can begin there, each with an item that
    has it behind the dot; that item itself begins with a later one of the list. *)
Definition starts : list (list (Z * (Z * Z))) := [
  [(13, (12, 0)); (28, (96, 0)); (27, (53, 0)); (19, (83, 0)); (22, (82, 0)); (21, (80, 0)); (14, (64, 0)); (26, (48, 0)); (4, (47, 0)); (6, (46, 0)); (11, (45, 0)); (3, (18, 0)); (5, (7, 0)); (32, (6, 0)); (36, (4, 0)); (35, (3, 0)); (1, (2, 0)); (34, (0, 0))];
  [];
  [];
  [(13, (12, 0)); (28, (96, 0)); (27, (53, 0)); (19, (83, 0)); (22, (82, 0)); (21, (80, 0)); (14, (64, 0)); (26, (48, 0)); (4, (47, 0)); (6, (46, 0)); (11, (45, 0)); (3, (18, 0)); (1, (17, 0)); (5, (7, 0)); (32, (6, 0)); (36, (5, 1)); (2, (3, 1))];
  [];
  [(31, (23, 0)); (30, (22, 0)); (29, (19, 1))];
  [];
  [(41, (54, 1))];
  [];
  [];
  [];
  [];
  [];
  [];
  [(28, (96, 0)); (27, (53, 0)); (19, (83, 0)); (22, (82, 0)); (21, (80, 0)); (14, (64, 0)); (11, (85, 0)); (17, (51, 1))];
  [(28, (96, 0)); (27, (53, 0)); (19, (83, 0)); (22, (82, 0)); (21, (80, 0)); (14, (64, 0)); (11, (85, 0)); (17, (52, 1))];
  [];
  [];
  [];
  [];
  [(28, (96, 0)); (27, (53, 0)); (19, (83, 0)); (22, (82, 0)); (21, (80, 0)); (14, (64, 0)); (11, (85, 0)); (17, (86, 0)); (10, (65, 1))];
  [(28, (96, 0)); (27, (53, 0)); (19, (83, 0)); (22, (82, 0)); (21, (80, 0)); (14, (64, 0)); (11, (79, 1))];
  [];
  [(28, (81, 1))];
  [];
  [(28, (96, 0)); (27, (53, 0)); (19, (83, 0)); (22, (82, 0)); (21, (80, 0)); (14, (64, 0)); (11, (28, 1))];
  [(28, (96, 0)); (27, (53, 0)); (19, (83, 0)); (22, (82, 0)); (21, (80, 0)); (14, (64, 0)); (11, (37, 1))];
  [(28, (96, 0)); (27, (53, 0)); (19, (83, 0)); (22, (82, 0)); (21, (80, 0)); (14, (64, 0)); (11, (39, 1))];
  [(28, (96, 0)); (27, (53, 0)); (19, (83, 0)); (22, (82, 0)); (21, (80, 0)); (14, (64, 0)); (26, (48, 0)); (4, (47, 0)); (6, (46, 0)); (11, (45, 0)); (3, (18, 0)); (1, (17, 0)); (2, (63, 1))];
  [];
  [];
  [(18, (58, 1))];
  [];
  [];
  [(28, (96, 0)); (27, (53, 0)); (19, (83, 0)); (22, (82, 0)); (21, (80, 0)); (14, (64, 0)); (11, (90, 1))];
  [(28, (96, 0)); (27, (53, 0)); (19, (83, 0)); (22, (82, 0)); (21, (80, 0)); (14, (64, 0)); (11, (91, 1))];
  [];
  [];
  [];
  [];
  [];
  [];
  [];
  [];
  [];
  [(31, (23, 0)); (30, (22, 0)); (29, (19, 1))];
  [];
  [];
  [(28, (96, 0)); (27, (53, 0)); (19, (83, 0)); (22, (82, 0)); (21, (80, 0)); (14, (64, 0)); (26, (48, 0)); (4, (47, 0)); (6, (46, 0)); (11, (45, 0)); (3, (21, 0)); (9, (19, 2))];
  [];
  [];
  [];
  [];
  [(28, (96, 0)); (27, (53, 0)); (19, (83, 0)); (22, (82, 0)); (21, (80, 0)); (14, (64, 0)); (11, (44, 2))];
  [(27, (54, 2))];
  [];
  [(28, (96, 0)); (27, (53, 0)); (19, (83, 0)); (22, (82, 0)); (21, (80, 0)); (14, (64, 0)); (11, (66, 2))];
  [(28, (96, 0)); (27, (53, 0)); (19, (83, 0)); (22, (82, 0)); (21, (80, 0)); (14, (64, 0)); (11, (67, 2))];
  [(28, (96, 0)); (27, (53, 0)); (19, (83, 0)); (22, (82, 0)); (21, (80, 0)); (14, (64, 0)); (11, (68, 2))];
  [(28, (96, 0)); (27, (53, 0)); (19, (83, 0)); (22, (82, 0)); (21, (80, 0)); (14, (64, 0)); (11, (69, 2))];
  [(28, (96, 0)); (27, (53, 0)); (19, (83, 0)); (22, (82, 0)); (21, (80, 0)); (14, (64, 0)); (11, (70, 2))];
  [(28, (96, 0)); (27, (53, 0)); (19, (83, 0)); (22, (82, 0)); (21, (80, 0)); (14, (64, 0)); (11, (71, 2))];
  [(28, (96, 0)); (27, (53, 0)); (19, (83, 0)); (22, (82, 0)); (21, (80, 0)); (14, (64, 0)); (11, (72, 2))];
  [(28, (96, 0)); (27, (53, 0)); (19, (83, 0)); (22, (82, 0)); (21, (80, 0)); (14, (64, 0)); (11, (73, 2))];
  [(28, (96, 0)); (27, (53, 0)); (19, (83, 0)); (22, (82, 0)); (21, (80, 0)); (14, (64, 0)); (11, (74, 2))];
  [(28, (96, 0)); (27, (53, 0)); (19, (83, 0)); (22, (82, 0)); (21, (80, 0)); (14, (64, 0)); (11, (75, 2))];
  [(28, (96, 0)); (27, (53, 0)); (19, (83, 0)); (22, (82, 0)); (21, (80, 0)); (14, (64, 0)); (11, (76, 2))];
  [(28, (96, 0)); (27, (53, 0)); (19, (83, 0)); (22, (82, 0)); (21, (80, 0)); (14, (64, 0)); (11, (77, 2))];
  [(28, (96, 0)); (27, (53, 0)); (19, (83, 0)); (22, (82, 0)); (21, (80, 0)); (14, (64, 0)); (11, (78, 2))];
  [];
  [];
  [(41, (54, 1))];
  [];
  [(28, (96, 0)); (27, (53, 0)); (19, (83, 0)); (22, (82, 0)); (21, (80, 0)); (14, (64, 0)); (11, (57, 2))];
  [(33, (87, 1))];
  [];
  [];
  [];
  [];
  [];
  [];
  [];
  [(31, (23, 0)); (30, (22, 0)); (29, (19, 1))];
  [(25, (12, 2))];
  [];
  [];
  [(28, (96, 0)); (27, (53, 0)); (19, (83, 0)); (22, (82, 0)); (21, (80, 0)); (14, (64, 0)); (11, (85, 0)); (17, (86, 0)); (10, (56, 2))];
  [];
  [(28, (96, 0)); (27, (53, 0)); (19, (83, 0)); (22, (82, 0)); (21, (80, 0)); (14, (64, 0)); (11, (59, 2))];
  [];
  [];
  [];
  [];
  [];
  [(28, (96, 0)); (27, (53, 0)); (19, (83, 0)); (22, (82, 0)); (21, (80, 0)); (14, (64, 0)); (11, (85, 0)); (17, (86, 0)); (10, (105, 2))];
  [(28, (96, 0)); (27, (53, 0)); (19, (83, 0)); (22, (82, 0)); (21, (80, 0)); (14, (64, 0)); (11, (33, 2))];
  [];
  [];
  [];
  [];
  [];
  [];
  [];
  [];
  [];
  [];
  [];
  [];
  [];
  [];
  [];
  [];
  [];
  [];
  [];
  [(28, (96, 0)); (27, (53, 0)); (19, (83, 0)); (22, (82, 0)); (21, (80, 0)); (14, (64, 0)); (11, (85, 0)); (17, (87, 2))];
  [];
  [(28, (96, 0)); (27, (53, 0)); (19, (83, 0)); (22, (82, 0)); (21, (80, 0)); (14, (64, 0)); (26, (48, 0)); (4, (47, 0)); (6, (46, 0)); (11, (45, 0)); (3, (18, 0)); (1, (17, 0)); (2, (28, 3))];
  [];
  [(28, (96, 0)); (27, (53, 0)); (19, (83, 0)); (22, (82, 0)); (21, (80, 0)); (14, (64, 0)); (11, (37, 3))];
  [];
  [];
  [(33, (108, 1)); (12, (12, 3))];
  [];
  [];
  [];
  [(33, (87, 1))];
  [];
  [(28, (96, 0)); (27, (53, 0)); (19, (83, 0)); (22, (82, 0)); (21, (80, 0)); (14, (64, 0)); (11, (85, 0)); (17, (86, 0)); (10, (104, 3))];
  [(33, (87, 1))];
  [(33, (33, 3))];
  [];
  [];
  [(31, (23, 0)); (30, (22, 0)); (7, (28, 4)); (29, (19, 1))];
  [(27, (53, 0)); (22, (43, 0)); (21, (41, 0)); (19, (40, 0)); (20, (35, 4))];
  [];
  [(28, (96, 0)); (27, (53, 0)); (19, (83, 0)); (22, (82, 0)); (21, (80, 0)); (14, (64, 0)); (26, (48, 0)); (4, (47, 0)); (6, (46, 0)); (11, (45, 0)); (3, (18, 0)); (1, (17, 0)); (2, (39, 4))];
  [(28, (96, 0)); (27, (53, 0)); (19, (83, 0)); (22, (82, 0)); (21, (80, 0)); (14, (64, 0)); (26, (48, 0)); (4, (47, 0)); (6, (46, 0)); (11, (45, 0)); (3, (18, 0)); (1, (17, 0)); (2, (63, 4))];
  [(30, (12, 4))];
  [];
  [];
  [(16, (101, 0)); (15, (14, 4))];
  [(16, (101, 0)); (15, (15, 4))];
  [];
  [];
  [(33, (87, 1))];
  [];
  [(28, (96, 0)); (27, (53, 0)); (19, (83, 0)); (22, (82, 0)); (21, (80, 0)); (14, (64, 0)); (11, (33, 4))];
  [(8, (28, 5))];
  [(28, (96, 0)); (27, (53, 0)); (19, (83, 0)); (22, (82, 0)); (21, (80, 0)); (14, (64, 0)); (11, (30, 1))];
  [];
  [(41, (54, 1))];
  [];
  [(21, (42, 1))];
  [];
  [];
  [(31, (23, 0)); (30, (22, 0)); (29, (19, 1))];
  [(31, (23, 0)); (30, (22, 0)); (29, (19, 1))];
  [];
  [];
  [(33, (102, 1))];
  [];
  [];
  [];
  [(33, (102, 1))];
  [];
  [(33, (33, 5))];
  [];
  [(28, (96, 0)); (27, (53, 0)); (19, (83, 0)); (22, (82, 0)); (21, (80, 0)); (14, (64, 0)); (26, (48, 0)); (4, (47, 0)); (6, (46, 0)); (11, (45, 0)); (3, (18, 0)); (1, (17, 0)); (2, (32, 1))];
  [];
  [];
  [];
  [(28, (96, 0)); (27, (53, 0)); (19, (83, 0)); (22, (82, 0)); (21, (80, 0)); (14, (64, 0)); (26, (48, 0)); (4, (47, 0)); (6, (46, 0)); (11, (45, 0)); (3, (18, 0)); (1, (17, 0)); (2, (37, 6))];
  [];
  [];
  [(12, (14, 6))];
  [(16, (102, 2))];
  [(28, (96, 0)); (14, (99, 2))];
  [];
  [(12, (15, 6))];
  [(28, (96, 0)); (27, (53, 0)); (19, (83, 0)); (22, (82, 0)); (21, (80, 0)); (14, (64, 0)); (11, (33, 6))];
  [];
  [(31, (23, 0)); (30, (22, 0)); (29, (19, 1))];
  [(28, (96, 0)); (27, (53, 0)); (19, (83, 0)); (22, (82, 0)); (21, (80, 0)); (14, (64, 0)); (26, (48, 0)); (4, (47, 0)); (6, (46, 0)); (11, (45, 0)); (3, (18, 0)); (1, (17, 0)); (2, (30, 3))];
  [(28, (96, 0)); (27, (53, 0)); (19, (83, 0)); (22, (82, 0)); (21, (80, 0)); (14, (64, 0)); (26, (48, 0)); (4, (47, 0)); (6, (46, 0)); (11, (45, 0)); (3, (18, 0)); (1, (17, 0)); (2, (35, 7))];
  [];
  [(31, (23, 0)); (30, (22, 0)); (29, (19, 1))];
  [];
  [];
  [];
  [(24, (25, 0)); (23, (15, 7))];
  [];
  [(31, (23, 0)); (30, (22, 0)); (7, (30, 4)); (29, (19, 1))];
  [(31, (23, 0)); (30, (22, 0)); (29, (19, 1))];
  [];
  [(24, (25, 0)); (23, (14, 8))];
  [(28, (96, 0)); (27, (53, 0)); (19, (83, 0)); (22, (82, 0)); (21, (80, 0)); (14, (64, 0)); (26, (48, 0)); (4, (47, 0)); (6, (46, 0)); (11, (45, 0)); (3, (18, 0)); (1, (17, 0)); (2, (15, 8))];
  [];
  [(25, (26, 1))];
  [];
  [];
  [];
  [(28, (96, 0)); (27, (53, 0)); (19, (83, 0)); (22, (82, 0)); (21, (80, 0)); (14, (64, 0)); (26, (48, 0)); (4, (47, 0)); (6, (46, 0)); (11, (45, 0)); (3, (18, 0)); (1, (17, 0)); (2, (14, 9))];
  [(31, (23, 0)); (30, (22, 0)); (29, (19, 1))];
  [(25, (27, 2))];
  [(33, (108, 1)); (30, (26, 2))];
  [(31, (23, 0)); (30, (22, 0)); (29, (19, 1))];
  [];
  [(33, (108, 1)); (30, (27, 3))];
  [];
  [];
  []].
