(** Generated by tools/gen_asc.py from assets/asc-12.yaml. Do not edit. *)
From Verif Require Import Base Params.

Local Notation S_ a b c d e := (mkAddShift a b%nat c d%nat e%nat) (only parsing).

Definition asc_chunk_0 : asc_map := [
  (1, []);
  (3, [S_ true 0 true 0 1]);
  (5, [S_ true 0 true 0 2]);
  (7, [S_ false 0 true 0 3]);
  (9, [S_ true 0 true 0 3]);
  (11, [S_ true 0 true 0 1; S_ false 0 true 1 2]);
  (13, [S_ true 0 true 0 1; S_ true 0 true 1 2]);
  (15, [S_ false 0 true 0 4]);
  (17, [S_ true 0 true 0 4]);
  (19, [S_ true 0 true 0 2; S_ false 0 true 1 2]);
  (21, [S_ true 0 true 0 2; S_ true 0 true 1 2]);
  (23, [S_ true 0 true 0 1; S_ false 0 true 1 3]);
  (25, [S_ true 0 true 0 1; S_ true 0 true 1 3]);
  (27, [S_ false 0 true 0 3; S_ false 0 true 1 2]);
  (29, [S_ false 0 true 0 3; S_ true 0 true 1 2]);
  (31, [S_ false 0 true 0 5]);
  (33, [S_ true 0 true 0 5]);
  (35, [S_ true 0 true 0 3; S_ false 0 true 1 2]);
  (37, [S_ true 0 true 0 3; S_ true 0 true 1 2]);
  (39, [S_ true 0 true 0 2; S_ false 0 true 1 3]);
  (41, [S_ true 0 true 0 2; S_ true 0 true 1 3]);
  (43, [S_ true 0 true 0 1; S_ false 0 true 1 2; S_ false 0 true 2 2]);
  (45, [S_ true 0 true 0 1; S_ false 1 true 1 4]);
  (47, [S_ true 0 true 0 1; S_ false 0 true 1 4]);
  (49, [S_ true 0 true 0 1; S_ true 0 true 1 4]);
  (51, [S_ true 0 true 0 1; S_ true 1 true 1 4]);
  (53, [S_ true 0 true 0 1; S_ true 0 true 1 2; S_ true 0 true 2 2]);
  (55, [S_ false 0 true 0 3; S_ false 0 true 1 3]);
  (57, [S_ false 0 true 0 3; S_ true 0 true 1 3]);
  (59, [S_ false 0 true 0 4; S_ false 0 true 1 2]);
  (61, [S_ false 0 true 0 4; S_ true 0 true 1 2]);
  (63, [S_ false 0 true 0 6]);
  (65, [S_ true 0 true 0 6]);
  (67, [S_ true 0 true 0 4; S_ false 0 true 1 2]);
  (69, [S_ true 0 true 0 4; S_ true 0 true 1 2]);
  (71, [S_ true 0 true 0 3; S_ false 0 true 1 3]);
  (73, [S_ true 0 true 0 3; S_ true 0 true 1 3]);
  (75, [S_ true 0 true 0 2; S_ false 1 true 1 4]);
  (77, [S_ true 0 true 0 2; S_ false 0 true 1 2; S_ true 0 true 2 2]);
  (79, [S_ true 0 true 0 2; S_ false 0 true 1 4]);
  (81, [S_ true 0 true 0 2; S_ true 0 true 1 4]);
  (83, [S_ true 0 true 0 2; S_ true 0 true 1 2; S_ false 0 true 2 2]);
  (85, [S_ true 0 true 0 2; S_ true 1 true 1 4]);
  (87, [S_ true 0 true 0 1; S_ false 0 true 1 2; S_ false 0 true 2 3]);
  (89, [S_ true 0 true 0 1; S_ false 0 true 1 2; S_ true 0 true 2 3]);
  (91, [S_ true 0 true 0 1; S_ false 0 true 1 3; S_ false 0 true 2 2]);
  (93, [S_ true 0 true 0 1; S_ false 1 true 1 5]);
  (95, [S_ true 0 true 0 1; S_ false 0 true 1 5]);
  (97, [S_ true 0 true 0 1; S_ true 0 true 1 5]);
  (99, [S_ true 0 true 0 1; S_ true 1 true 1 5]);
  (101, [S_ true 0 true 0 1; S_ true 0 true 1 3; S_ true 0 true 2 2]);
  (103, [S_ true 0 true 0 1; S_ true 0 true 1 2; S_ false 0 true 2 3]);
  (105, [S_ false 0 true 0 3; S_ false 1 true 1 4]);
  (107, [S_ false 0 true 0 3; S_ false 0 true 1 2; S_ false 0 true 2 2]);
  (109, [S_ false 0 true 0 3; S_ false 0 true 1 2; S_ true 0 true 2 2]);
  (111, [S_ false 0 true 0 3; S_ false 0 true 1 4]);
  (113, [S_ false 0 true 0 3; S_ true 0 true 1 4]);
  (115, [S_ false 0 true 0 3; S_ true 0 true 1 2; S_ false 0 true 2 2]);
  (117, [S_ false 0 true 0 3; S_ true 0 true 1 2; S_ true 0 true 2 2]);
  (119, [S_ false 0 true 0 4; S_ false 0 true 1 3]);
  (121, [S_ false 0 true 0 4; S_ true 0 true 1 3]);
  (123, [S_ false 0 true 0 5; S_ false 0 true 1 2]);
  (125, [S_ false 0 true 0 5; S_ true 0 true 1 2]);
  (127, [S_ false 0 true 0 7]);
  (129, [S_ true 0 true 0 7]);
  (131, [S_ true 0 true 0 5; S_ false 0 true 1 2]);
  (133, [S_ true 0 true 0 5; S_ true 0 true 1 2]);
  (135, [S_ true 0 true 0 4; S_ false 0 true 1 3]);
  (137, [S_ true 0 true 0 4; S_ true 0 true 1 3]);
  (139, [S_ true 0 true 0 3; S_ false 0 true 1 2; S_ false 0 true 2 2]);
  (141, [S_ true 0 true 0 3; S_ false 0 true 1 2; S_ true 0 true 2 2]);
  (143, [S_ true 0 true 0 3; S_ false 0 true 1 4]);
  (145, [S_ true 0 true 0 3; S_ true 0 true 1 4]);
  (147, [S_ true 0 true 0 3; S_ true 0 true 1 2; S_ false 0 true 2 2]);
  (149, [S_ true 0 true 0 3; S_ true 0 true 1 2; S_ true 0 true 2 2]);
  (151, [S_ true 0 true 0 2; S_ false 0 true 1 2; S_ false 0 true 2 3]);
  (153, [S_ true 0 true 0 3; S_ true 1 true 1 4]);
  (155, [S_ true 0 true 0 2; S_ false 1 true 1 5]);
  (157, [S_ true 0 true 0 2; S_ false 0 true 1 3; S_ true 0 true 2 2]);
  (159, [S_ true 0 true 0 2; S_ false 0 true 1 5]);
  (161, [S_ true 0 true 0 2; S_ true 0 true 1 5]);
  (163, [S_ true 0 true 0 2; S_ true 0 true 1 3; S_ false 0 true 2 2]);
  (165, [S_ true 0 true 0 2; S_ true 1 true 1 5]);
  (167, [S_ true 0 true 0 2; S_ true 0 true 1 2; S_ false 0 true 2 3]);
  (169, [S_ true 0 true 0 2; S_ true 0 true 1 2; S_ true 0 true 2 3]);
  (171, [S_ true 0 true 0 2; S_ true 1 true 1 4; S_ true 0 true 2 1]);
  (173, [S_ true 0 true 0 1; S_ false 0 true 1 2; S_ false 1 true 2 4]);
  (175, [S_ true 0 true 0 1; S_ false 0 true 1 2; S_ false 0 true 2 4]);
  (177, [S_ true 0 true 0 1; S_ false 0 true 1 2; S_ true 0 true 2 4]);
  (179, [S_ true 0 true 0 1; S_ false 1 true 1 4; S_ false 0 true 2 2]);
  (181, [S_ true 0 true 0 1; S_ false 1 true 1 4; S_ true 0 true 2 2]);
  (183, [S_ true 0 true 0 1; S_ false 0 true 1 3; S_ false 0 true 2 3]);
  (185, [S_ true 0 true 0 1; S_ false 0 true 1 3; S_ true 0 true 2 3]);
  (187, [S_ true 0 true 0 1; S_ false 0 true 1 4; S_ false 0 true 2 2]);
  (189, [S_ true 0 true 0 1; S_ false 1 true 1 6]);
  (191, [S_ true 0 true 0 1; S_ false 0 true 1 6]);
  (193, [S_ true 0 true 0 1; S_ true 0 true 1 6]);
  (195, [S_ true 0 true 0 1; S_ true 1 true 1 6]);
  (197, [S_ true 0 true 0 1; S_ true 0 true 1 4; S_ true 0 true 2 2]);
  (199, [S_ true 0 true 0 1; S_ true 0 true 1 3; S_ false 0 true 2 3]);
  (201, [S_ true 0 true 0 1; S_ true 0 true 1 3; S_ true 0 true 2 3]);
  (203, [S_ true 0 true 0 1; S_ true 1 true 1 4; S_ false 0 true 2 2]);
  (205, [S_ true 0 true 0 1; S_ true 1 true 1 4; S_ true 0 true 2 2]);
  (207, [S_ true 0 true 0 1; S_ true 0 true 1 2; S_ false 0 true 2 4]);
  (209, [S_ true 0 true 0 1; S_ true 0 true 1 2; S_ true 0 true 2 4]);
  (211, [S_ false 0 true 0 3; S_ false 1 true 1 4; S_ true 0 true 2 1]);
  (213, [S_ true 0 true 0 1; S_ true 1 true 1 3; S_ false 1 true 2 3]);
  (215, [S_ false 0 true 0 3; S_ false 0 true 1 2; S_ false 0 true 2 3]);
  (217, [S_ false 0 true 0 3; S_ false 1 true 1 5]);
  (219, [S_ false 0 true 0 3; S_ false 0 true 1 3; S_ false 0 true 2 2]);
  (221, [S_ false 0 true 0 3; S_ false 0 true 1 3; S_ true 0 true 2 2]);
  (223, [S_ false 0 true 0 3; S_ false 0 true 1 5]);
  (225, [S_ false 0 true 0 3; S_ true 0 true 1 5]);
  (227, [S_ false 0 true 0 3; S_ true 0 true 1 3; S_ false 0 true 2 2]);
  (229, [S_ false 0 true 0 3; S_ true 0 true 1 3; S_ true 0 true 2 2]);
  (231, [S_ false 0 true 0 3; S_ true 1 true 1 5]);
  (233, [S_ false 0 true 0 3; S_ true 0 true 1 2; S_ true 0 true 2 3]);
  (235, [S_ false 0 true 0 4; S_ false 0 true 1 2; S_ false 0 true 2 2]);
  (237, [S_ false 0 true 0 4; S_ false 0 true 1 2; S_ true 0 true 2 2]);
  (239, [S_ false 0 true 0 4; S_ false 0 true 1 4]);
  (241, [S_ false 0 true 0 4; S_ true 0 true 1 4]);
  (243, [S_ false 0 true 0 4; S_ true 0 true 1 2; S_ false 0 true 2 2]);
  (245, [S_ false 0 true 0 4; S_ true 0 true 1 2; S_ true 0 true 2 2]);
  (247, [S_ false 0 true 0 5; S_ false 0 true 1 3]);
  (249, [S_ false 0 true 0 5; S_ true 0 true 1 3]);
  (251, [S_ false 0 true 0 6; S_ false 0 true 1 2]);
  (253, [S_ false 0 true 0 6; S_ true 0 true 1 2]);
  (255, [S_ false 0 true 0 8]);
  (257, [S_ true 0 true 0 8]);
  (259, [S_ true 0 true 0 6; S_ false 0 true 1 2]);
  (261, [S_ true 0 true 0 6; S_ true 0 true 1 2]);
  (263, [S_ true 0 true 0 5; S_ false 0 true 1 3]);
  (265, [S_ true 0 true 0 5; S_ true 0 true 1 3]);
  (267, [S_ true 0 true 0 4; S_ false 0 true 1 2; S_ false 0 true 2 2]);
  (269, [S_ true 0 true 0 4; S_ false 0 true 1 2; S_ true 0 true 2 2]);
  (271, [S_ true 0 true 0 4; S_ false 0 true 1 4]);
  (273, [S_ true 0 true 0 4; S_ true 0 true 1 4]);
  (275, [S_ true 0 true 0 4; S_ true 0 true 1 2; S_ false 0 true 2 2]);
  (277, [S_ true 0 true 0 4; S_ true 0 true 1 2; S_ true 0 true 2 2]);
  (279, [S_ true 0 true 0 3; S_ false 1 true 1 5]);
  (281, [S_ true 0 true 0 3; S_ false 0 true 1 2; S_ true 0 true 2 3]);
  (283, [S_ true 0 true 0 3; S_ false 0 true 1 3; S_ false 0 true 2 2]);
  (285, [S_ true 0 true 0 3; S_ false 0 true 1 3; S_ true 0 true 2 2]);
  (287, [S_ true 0 true 0 3; S_ false 0 true 1 5]);
  (289, [S_ true 0 true 0 3; S_ true 0 true 1 5]);
  (291, [S_ true 0 true 0 3; S_ true 0 true 1 3; S_ false 0 true 2 2]);
  (293, [S_ true 0 true 0 3; S_ true 0 true 1 3; S_ true 0 true 2 2]);
  (295, [S_ true 0 true 0 3; S_ true 0 true 1 2; S_ false 0 true 2 3]);
  (297, [S_ true 0 true 0 3; S_ true 1 true 1 5]);
  (299, [S_ true 0 true 0 2; S_ false 1 true 1 4; S_ false 0 true 2 2]);
  (301, [S_ true 0 true 0 2; S_ false 1 true 1 4; S_ true 0 true 2 2]);
  (303, [S_ true 0 true 0 2; S_ false 0 true 1 2; S_ false 0 true 2 4]);
  (305, [S_ true 0 true 0 2; S_ false 0 true 1 2; S_ true 0 true 2 4]);
  (307, [S_ true 0 true 0 3; S_ true 1 true 1 4; S_ true 0 true 2 1]);
  (309, [S_ true 0 true 0 2; S_ false 1 true 1 5; S_ false 0 true 2 1]);
  (311, [S_ true 0 true 0 2; S_ false 0 true 1 3; S_ false 0 true 2 3]);
  (313, [S_ true 0 true 0 2; S_ false 0 true 1 3; S_ true 0 true 2 3]);
  (315, [S_ true 0 true 0 2; S_ false 1 true 1 6]);
  (317, [S_ true 0 true 0 2; S_ false 0 true 1 4; S_ true 0 true 2 2]);
  (319, [S_ true 0 true 0 2; S_ false 0 true 1 6]);
  (321, [S_ true 0 true 0 2; S_ true 0 true 1 6]);
  (323, [S_ true 0 true 0 2; S_ true 0 true 1 4; S_ false 0 true 2 2]);
  (325, [S_ true 0 true 0 2; S_ true 1 true 1 6]);
  (327, [S_ true 0 true 0 2; S_ true 0 true 1 3; S_ false 0 true 2 3]);
  (329, [S_ true 0 true 0 2; S_ true 0 true 1 3; S_ true 0 true 2 3]);
  (331, [S_ true 0 true 0 2; S_ true 1 true 1 5; S_ true 0 true 2 1]);
  (333, [S_ true 0 true 0 1; S_ false 1 true 1 3; S_ false 1 true 2 4]);
  (335, [S_ true 0 true 0 2; S_ true 0 true 1 2; S_ false 0 true 2 4]);
  (337, [S_ true 0 true 0 2; S_ true 0 true 1 2; S_ true 0 true 2 4]);
  (339, [S_ true 0 true 0 2; S_ true 1 true 1 4; S_ false 0 true 2 2]);
  (341, [S_ true 0 true 0 2; S_ true 1 true 1 4; S_ true 0 true 2 2]);
  (343, [S_ true 0 true 0 3; S_ true 1 true 0 1; S_ false 1 true 2 5]);
  (345, [S_ true 0 true 0 2; S_ true 1 true 1 4; S_ true 1 true 2 2]);
  (347, [S_ true 0 true 0 2; S_ true 0 true 1 1; S_ false 1 true 2 5]);
  (349, [S_ true 0 true 0 1; S_ false 0 true 1 2; S_ false 1 true 2 5]);
  (351, [S_ true 0 true 0 1; S_ false 0 true 1 2; S_ false 0 true 2 5]);
  (353, [S_ true 0 true 0 1; S_ false 0 true 1 2; S_ true 0 true 2 5]);
  (355, [S_ true 0 true 0 1; S_ false 0 true 1 2; S_ true 1 true 2 5]);
  (357, [S_ true 0 true 0 1; S_ false 1 true 1 4; S_ false 1 true 2 3]);
  (359, [S_ true 0 true 0 1; S_ false 1 true 1 4; S_ false 0 true 2 3]);
  (361, [S_ true 0 true 0 1; S_ false 1 true 1 4; S_ true 0 true 2 3]);
  (363, [S_ true 0 true 0 1; S_ false 1 true 1 4; S_ true 1 true 2 3]);
  (365, [S_ true 0 true 0 1; S_ false 0 true 1 3; S_ false 1 true 2 4]);
  (367, [S_ true 0 true 0 1; S_ false 0 true 1 3; S_ false 0 true 2 4]);
  (369, [S_ true 0 true 0 1; S_ false 0 true 1 3; S_ true 0 true 2 4]);
  (371, [S_ true 0 true 0 1; S_ false 1 true 1 5; S_ false 0 true 2 2]);
  (373, [S_ true 0 true 0 1; S_ false 1 true 1 5; S_ true 0 true 2 2]);
  (375, [S_ true 0 true 0 1; S_ false 0 true 1 4; S_ false 0 true 2 3]);
  (377, [S_ true 0 true 0 1; S_ false 0 true 1 4; S_ true 0 true 2 3]);
  (379, [S_ true 0 true 0 1; S_ false 0 true 1 5; S_ false 0 true 2 2]);
  (381, [S_ true 0 true 0 1; S_ false 1 true 1 7]);
  (383, [S_ true 0 true 0 1; S_ false 0 true 1 7]);
  (385, [S_ true 0 true 0 1; S_ true 0 true 1 7]);
  (387, [S_ true 0 true 0 1; S_ true 1 true 1 7]);
  (389, [S_ true 0 true 0 1; S_ true 0 true 1 5; S_ true 0 true 2 2]);
  (391, [S_ true 0 true 0 1; S_ true 0 true 1 4; S_ false 0 true 2 3]);
  (393, [S_ true 0 true 0 1; S_ true 0 true 1 4; S_ true 0 true 2 3]);
  (395, [S_ true 0 true 0 1; S_ true 1 true 1 5; S_ false 0 true 2 2]);
  (397, [S_ true 0 true 0 1; S_ true 1 true 1 5; S_ true 0 true 2 2]);
  (399, [S_ true 0 true 0 1; S_ true 0 true 1 3; S_ false 0 true 2 4]);
  (401, [S_ true 0 true 0 1; S_ true 0 true 1 3; S_ true 0 true 2 4]);
  (403, [S_ true 0 true 0 1; S_ true 0 true 1 3; S_ true 1 true 2 4]);
  (405, [S_ true 0 true 0 1; S_ true 1 true 1 4; S_ false 1 true 2 3]);
  (407, [S_ true 0 true 0 1; S_ true 1 true 1 4; S_ false 0 true 2 3]);
  (409, [S_ true 0 true 0 1; S_ true 1 true 1 4; S_ true 0 true 2 3]);
  (411, [S_ true 0 true 0 1; S_ true 1 true 1 4; S_ true 1 true 2 3]);
  (413, [S_ true 0 true 0 1; S_ true 0 true 1 2; S_ false 1 true 2 5]);
  (415, [S_ true 0 true 0 1; S_ true 0 true 1 2; S_ false 0 true 2 5]);
  (417, [S_ true 0 true 0 1; S_ true 0 true 1 2; S_ true 0 true 2 5]);
  (419, [S_ false 0 true 0 3; S_ false 1 true 1 4; S_ false 0 true 2 2]);
  (421, [S_ false 0 true 0 3; S_ false 1 true 1 4; S_ true 0 true 2 2]);
  (423, [S_ true 0 true 0 3; S_ true 1 true 1 1; S_ false 1 true 2 4]);
  (425, [S_ true 0 true 0 3; S_ true 1 true 0 2; S_ true 1 true 2 5]);
  (427, [S_ true 0 true 0 2; S_ false 1 true 0 5; S_ false 1 true 2 4]);
  (429, [S_ true 0 true 0 1; S_ true 1 true 1 3; S_ false 1 true 2 4]);
  (431, [S_ false 0 true 0 3; S_ false 0 true 1 2; S_ false 0 true 2 4]);
  (433, [S_ false 0 true 0 3; S_ false 0 true 1 2; S_ true 0 true 2 4]);
  (435, [S_ false 0 true 0 3; S_ false 1 true 1 5; S_ true 0 true 2 1]);
  (437, [S_ true 0 true 0 2; S_ false 1 true 0 5; S_ true 1 true 2 4]);
  (439, [S_ false 0 true 0 3; S_ false 0 true 1 3; S_ false 0 true 2 3]);
  (441, [S_ false 0 true 0 3; S_ false 1 true 1 6]);
  (443, [S_ false 0 true 0 3; S_ false 0 true 1 4; S_ false 0 true 2 2]);
  (445, [S_ false 0 true 0 3; S_ false 0 true 1 4; S_ true 0 true 2 2]);
  (447, [S_ false 0 true 0 3; S_ false 0 true 1 6]);
  (449, [S_ false 0 true 0 3; S_ true 0 true 1 6]);
  (451, [S_ false 0 true 0 3; S_ true 0 true 1 4; S_ false 0 true 2 2]);
  (453, [S_ false 0 true 0 3; S_ true 0 true 1 4; S_ true 0 true 2 2]);
  (455, [S_ false 0 true 0 3; S_ true 1 true 1 6]);
  (457, [S_ false 0 true 0 3; S_ true 0 true 1 3; S_ true 0 true 2 3]);
  (459, [S_ false 0 true 0 3; S_ true 0 true 1 4; S_ true 1 true 2 2]);
  (461, [S_ false 0 true 0 3; S_ true 1 true 1 5; S_ false 0 true 2 1]);
  (463, [S_ false 0 true 0 3; S_ true 0 true 1 2; S_ false 0 true 2 4]);
  (465, [S_ false 0 true 0 4; S_ false 1 true 1 5]);
  (467, [S_ true 0 true 0 1; S_ false 1 true 0 5; S_ true 1 true 2 4]);
  (469, [S_ false 0 true 0 3; S_ true 1 true 1 4; S_ false 1 true 2 2]);
  (471, [S_ false 0 true 0 4; S_ false 0 true 1 2; S_ false 0 true 2 3]);
  (473, [S_ false 0 true 0 4; S_ false 0 true 1 2; S_ true 0 true 2 3]);
  (475, [S_ false 0 true 0 4; S_ false 0 true 1 3; S_ false 0 true 2 2]);
  (477, [S_ false 0 true 0 4; S_ false 0 true 1 3; S_ true 0 true 2 2]);
  (479, [S_ false 0 true 0 4; S_ false 0 true 1 5]);
  (481, [S_ false 0 true 0 4; S_ true 0 true 1 5]);
  (483, [S_ false 0 true 0 4; S_ true 0 true 1 3; S_ false 0 true 2 2]);
  (485, [S_ false 0 true 0 4; S_ true 0 true 1 3; S_ true 0 true 2 2]);
  (487, [S_ false 0 true 0 4; S_ true 0 true 1 2; S_ false 0 true 2 3]);
  (489, [S_ false 0 true 0 4; S_ true 0 true 1 2; S_ true 0 true 2 3]);
  (491, [S_ false 0 true 0 5; S_ false 0 true 1 2; S_ false 0 true 2 2]);
  (493, [S_ false 0 true 0 5; S_ false 0 true 1 2; S_ true 0 true 2 2]);
  (495, [S_ false 0 true 0 5; S_ false 0 true 1 4]);
  (497, [S_ false 0 true 0 5; S_ true 0 true 1 4]);
  (499, [S_ false 0 true 0 5; S_ true 0 true 1 2; S_ false 0 true 2 2]);
  (501, [S_ false 0 true 0 5; S_ true 0 true 1 2; S_ true 0 true 2 2]);
  (503, [S_ false 0 true 0 6; S_ false 0 true 1 3]);
  (505, [S_ false 0 true 0 6; S_ true 0 true 1 3]);
  (507, [S_ false 0 true 0 7; S_ false 0 true 1 2]);
  (509, [S_ false 0 true 0 7; S_ true 0 true 1 2]);
  (511, [S_ false 0 true 0 9])].

Definition asc_chunk_1 : asc_map := [
  (513, [S_ true 0 true 0 9]);
  (515, [S_ true 0 true 0 7; S_ false 0 true 1 2]);
  (517, [S_ true 0 true 0 7; S_ true 0 true 1 2]);
  (519, [S_ true 0 true 0 6; S_ false 0 true 1 3]);
  (521, [S_ true 0 true 0 6; S_ true 0 true 1 3]);
  (523, [S_ true 0 true 0 5; S_ false 0 true 1 2; S_ false 0 true 2 2]);
  (525, [S_ true 0 true 0 5; S_ false 0 true 1 2; S_ true 0 true 2 2]);
  (527, [S_ true 0 true 0 5; S_ false 0 true 1 4]);
  (529, [S_ true 0 true 0 5; S_ true 0 true 1 4]);
  (531, [S_ true 0 true 0 5; S_ true 0 true 1 2; S_ false 0 true 2 2]);
  (533, [S_ true 0 true 0 5; S_ true 0 true 1 2; S_ true 0 true 2 2]);
  (535, [S_ true 0 true 0 4; S_ false 0 true 1 2; S_ false 0 true 2 3]);
  (537, [S_ true 0 true 0 4; S_ false 0 true 1 2; S_ true 0 true 2 3]);
  (539, [S_ true 0 true 0 4; S_ false 0 true 1 3; S_ false 0 true 2 2]);
  (541, [S_ true 0 true 0 4; S_ false 0 true 1 3; S_ true 0 true 2 2]);
  (543, [S_ true 0 true 0 4; S_ false 0 true 1 5]);
  (545, [S_ true 0 true 0 4; S_ true 0 true 1 5]);
  (547, [S_ true 0 true 0 4; S_ true 0 true 1 3; S_ false 0 true 2 2]);
  (549, [S_ true 0 true 0 4; S_ true 0 true 1 3; S_ true 0 true 2 2]);
  (551, [S_ true 0 true 0 4; S_ true 0 true 1 2; S_ false 0 true 2 3]);
  (553, [S_ true 0 true 0 4; S_ true 0 true 1 2; S_ true 0 true 2 3]);
  (555, [S_ true 0 true 0 2; S_ false 1 true 1 3; S_ false 1 true 2 4]);
  (557, [S_ true 0 true 0 3; S_ false 1 true 1 5; S_ false 0 true 2 1]);
  (559, [S_ true 0 true 0 3; S_ false 0 true 1 2; S_ false 0 true 2 4]);
  (561, [S_ true 0 true 0 4; S_ true 1 true 1 5]);
  (563, [S_ true 0 true 0 1; S_ true 1 true 0 5; S_ true 1 true 2 4]);
  (565, [S_ true 0 true 0 2; S_ false 1 true 1 3; S_ true 1 true 2 4]);
  (567, [S_ true 0 true 0 3; S_ false 1 true 1 6]);
  (569, [S_ true 0 true 0 3; S_ false 0 true 1 3; S_ true 0 true 2 3]);
  (571, [S_ true 0 true 0 3; S_ false 0 true 1 4; S_ false 0 true 2 2]);
  (573, [S_ true 0 true 0 3; S_ false 0 true 1 4; S_ true 0 true 2 2]);
  (575, [S_ true 0 true 0 3; S_ false 0 true 1 6]);
  (577, [S_ true 0 true 0 3; S_ true 0 true 1 6]);
  (579, [S_ true 0 true 0 3; S_ true 0 true 1 4; S_ false 0 true 2 2]);
  (581, [S_ true 0 true 0 3; S_ true 0 true 1 4; S_ true 0 true 2 2]);
  (583, [S_ true 0 true 0 3; S_ true 0 true 1 3; S_ false 0 true 2 3]);
  (585, [S_ true 0 true 0 3; S_ true 1 true 1 6]);
  (587, [S_ true 0 true 0 2; S_ true 1 true 0 5; S_ false 1 true 2 4]);
  (589, [S_ true 0 true 0 3; S_ true 0 true 1 4; S_ true 1 true 2 2]);
  (591, [S_ true 0 true 0 3; S_ true 0 true 1 2; S_ false 0 true 2 4]);
  (593, [S_ true 0 true 0 3; S_ true 0 true 1 2; S_ true 0 true 2 4]);
  (595, [S_ true 0 true 0 3; S_ true 1 true 1 5; S_ true 0 true 2 1]);
  (597, [S_ true 0 true 0 2; S_ true 1 true 0 5; S_ true 1 true 2 4]);
  (599, [S_ true 0 true 0 2; S_ false 1 true 1 4; S_ false 0 true 2 3]);
  (601, [S_ true 0 true 0 2; S_ false 1 true 1 4; S_ true 0 true 2 3]);
  (603, [S_ true 0 true 0 2; S_ false 0 true 1 2; S_ false 1 true 2 5]);
  (605, [S_ true 0 true 0 1; S_ true 1 true 0 4; S_ false 1 true 2 5]);
  (607, [S_ true 0 true 0 2; S_ false 0 true 1 2; S_ false 0 true 2 5]);
  (609, [S_ true 0 true 0 2; S_ false 0 true 1 2; S_ true 0 true 2 5]);
  (611, [S_ true 0 true 0 3; S_ true 1 true 1 4; S_ false 0 true 2 2]);
  (613, [S_ true 0 true 0 3; S_ true 1 true 1 4; S_ true 0 true 2 2]);
  (615, [S_ true 0 true 0 2; S_ false 1 true 1 5; S_ false 1 true 2 2]);
  (617, [S_ true 0 true 0 3; S_ true 0 true 1 1; S_ true 1 true 2 5]);
  (619, [S_ true 0 true 0 2; S_ false 1 true 1 5; S_ false 0 true 2 2]);
  (621, [S_ true 0 true 0 2; S_ false 1 true 1 5; S_ true 0 true 2 2]);
  (623, [S_ true 0 true 0 2; S_ false 0 true 1 3; S_ false 0 true 2 4]);
  (625, [S_ true 0 true 0 2; S_ false 0 true 1 3; S_ true 0 true 2 4]);
  (627, [S_ true 0 true 0 2; S_ false 0 true 1 4; S_ false 1 true 2 3]);
  (629, [S_ true 0 true 0 2; S_ false 1 true 1 6; S_ false 0 true 2 1]);
  (631, [S_ true 0 true 0 2; S_ false 0 true 1 4; S_ false 0 true 2 3]);
  (633, [S_ true 0 true 0 2; S_ false 0 true 1 4; S_ true 0 true 2 3]);
  (635, [S_ true 0 true 0 2; S_ false 1 true 1 7]);
  (637, [S_ true 0 true 0 2; S_ false 0 true 1 5; S_ true 0 true 2 2]);
  (639, [S_ true 0 true 0 2; S_ false 0 true 1 7]);
  (641, [S_ true 0 true 0 2; S_ true 0 true 1 7]);
  (643, [S_ true 0 true 0 2; S_ true 0 true 1 5; S_ false 0 true 2 2]);
  (645, [S_ true 0 true 0 2; S_ true 1 true 1 7]);
  (647, [S_ true 0 true 0 2; S_ true 0 true 1 4; S_ false 0 true 2 3]);
  (649, [S_ true 0 true 0 2; S_ true 0 true 1 4; S_ true 0 true 2 3]);
  (651, [S_ true 0 true 0 2; S_ true 1 true 1 6; S_ true 0 true 2 1]);
  (653, [S_ true 0 true 0 2; S_ true 0 true 1 4; S_ true 1 true 2 3]);
  (655, [S_ true 0 true 0 2; S_ true 0 true 1 3; S_ false 0 true 2 4]);
  (657, [S_ true 0 true 0 2; S_ true 0 true 1 3; S_ true 0 true 2 4]);
  (659, [S_ true 0 true 0 2; S_ true 1 true 1 5; S_ false 0 true 2 2]);
  (661, [S_ true 0 true 0 2; S_ true 1 true 1 5; S_ true 0 true 2 2]);
  (663, [S_ true 0 true 0 4; S_ true 1 true 1 2; S_ false 1 true 2 3]);
  (665, [S_ true 0 true 0 2; S_ true 1 true 1 5; S_ true 1 true 2 2]);
  (667, [S_ true 0 true 0 2; S_ true 0 true 1 2; S_ false 1 true 2 5]);
  (669, [S_ true 0 true 0 1; S_ false 1 true 1 3; S_ false 1 true 2 5]);
  (671, [S_ true 0 true 0 2; S_ true 0 true 1 2; S_ false 0 true 2 5]);
  (673, [S_ true 0 true 0 2; S_ true 0 true 1 2; S_ true 0 true 2 5]);
  (675, [S_ true 0 true 0 1; S_ false 1 true 1 3; S_ true 1 true 2 5]);
  (677, [S_ true 0 true 0 2; S_ true 0 true 1 2; S_ true 1 true 2 5]);
  (679, [S_ true 0 true 0 2; S_ true 1 true 1 4; S_ false 0 true 2 3]);
  (681, [S_ true 0 true 0 2; S_ true 1 true 1 4; S_ true 0 true 2 3]);
  (683, [S_ true 0 true 0 2; S_ true 1 true 1 4; S_ true 0 true 2 1; S_ false 0 true 3 2]);
  (685, [S_ true 0 true 0 2; S_ true 1 true 1 4; S_ true 1 true 2 3]);
  (687, [S_ true 0 true 0 1; S_ false 0 true 1 2; S_ false 0 true 2 2; S_ false 0 true 3 4]);
  (689, [S_ true 0 true 0 4; S_ true 1 true 0 2; S_ true 1 true 2 5]);
  (691, [S_ true 0 true 0 1; S_ false 0 true 1 2; S_ false 1 true 2 4; S_ false 0 true 3 2]);
  (693, [S_ true 0 true 0 5; S_ true 1 true 1 2; S_ true 1 true 2 2]);
  (695, [S_ true 0 true 0 3; S_ true 1 true 0 1; S_ false 1 true 2 6]);
  (697, [S_ false 0 true 0 3; S_ true 1 true 0 2; S_ false 1 true 2 6]);
  (699, [S_ true 0 true 0 2; S_ true 0 true 1 1; S_ false 1 true 2 6]);
  (701, [S_ true 0 true 0 1; S_ false 0 true 1 2; S_ false 1 true 2 6]);
  (703, [S_ true 0 true 0 1; S_ false 0 true 1 2; S_ false 0 true 2 6]);
  (705, [S_ true 0 true 0 1; S_ false 0 true 1 2; S_ true 0 true 2 6]);
  (707, [S_ true 0 true 0 1; S_ false 0 true 1 2; S_ true 1 true 2 6]);
  (709, [S_ true 0 true 0 2; S_ true 0 true 1 1; S_ true 1 true 2 6]);
  (711, [S_ true 0 true 0 3; S_ true 1 true 1 2; S_ false 1 true 2 4]);
  (713, [S_ true 0 true 0 3; S_ true 1 true 0 1; S_ true 1 true 2 6]);
  (715, [S_ true 0 true 0 2; S_ true 1 true 1 3; S_ false 1 true 2 4]);
  (717, [S_ true 0 true 0 1; S_ false 1 true 1 4; S_ false 1 true 2 4]);
  (719, [S_ true 0 true 0 1; S_ false 1 true 1 4; S_ false 0 true 2 4]);
  (721, [S_ true 0 true 0 1; S_ false 1 true 1 4; S_ true 0 true 2 4]);
  (723, [S_ true 0 true 0 1; S_ false 1 true 1 4; S_ true 1 true 2 4]);
  (725, [S_ true 0 true 0 2; S_ true 1 true 1 3; S_ true 1 true 2 4]);
  (727, [S_ true 0 true 0 3; S_ false 1 true 0 5; S_ false 1 true 2 5]);
  (729, [S_ true 0 true 0 3; S_ true 1 true 1 2; S_ true 1 true 2 4]);
  (731, [S_ true 0 true 0 1; S_ false 0 true 1 3; S_ false 0 true 2 3; S_ false 0 true 3 2]);
  (733, [S_ true 0 true 0 1; S_ false 0 true 1 3; S_ false 1 true 2 5]);
  (735, [S_ true 0 true 0 1; S_ false 0 true 1 3; S_ false 0 true 2 5]);
  (737, [S_ true 0 true 0 1; S_ false 0 true 1 3; S_ true 0 true 2 5]);
  (739, [S_ true 0 true 0 1; S_ false 0 true 1 3; S_ true 1 true 2 5]);
  (741, [S_ true 0 true 0 1; S_ false 1 true 1 5; S_ false 1 true 2 3]);
  (743, [S_ true 0 true 0 1; S_ false 1 true 1 5; S_ false 0 true 2 3]);
  (745, [S_ true 0 true 0 1; S_ false 1 true 1 5; S_ true 0 true 2 3]);
  (747, [S_ true 0 true 0 1; S_ false 1 true 1 5; S_ true 1 true 2 3]);
  (749, [S_ true 0 true 0 1; S_ false 0 true 1 4; S_ false 1 true 2 4]);
  (751, [S_ true 0 true 0 1; S_ false 0 true 1 4; S_ false 0 true 2 4]);
  (753, [S_ true 0 true 0 1; S_ false 0 true 1 4; S_ true 0 true 2 4]);
  (755, [S_ true 0 true 0 1; S_ false 1 true 1 6; S_ false 0 true 2 2]);
  (757, [S_ true 0 true 0 1; S_ false 1 true 1 6; S_ true 0 true 2 2]);
  (759, [S_ true 0 true 0 1; S_ false 0 true 1 5; S_ false 0 true 2 3]);
  (761, [S_ true 0 true 0 1; S_ false 0 true 1 5; S_ true 0 true 2 3]);
  (763, [S_ true 0 true 0 1; S_ false 0 true 1 6; S_ false 0 true 2 2]);
  (765, [S_ true 0 true 0 1; S_ false 1 true 1 8]);
  (767, [S_ true 0 true 0 1; S_ false 0 true 1 8]);
  (769, [S_ true 0 true 0 1; S_ true 0 true 1 8]);
  (771, [S_ true 0 true 0 1; S_ true 1 true 1 8]);
  (773, [S_ true 0 true 0 1; S_ true 0 true 1 6; S_ true 0 true 2 2]);
  (775, [S_ true 0 true 0 1; S_ true 0 true 1 5; S_ false 0 true 2 3]);
  (777, [S_ true 0 true 0 1; S_ true 0 true 1 5; S_ true 0 true 2 3]);
  (779, [S_ true 0 true 0 1; S_ true 1 true 1 6; S_ false 0 true 2 2]);
  (781, [S_ true 0 true 0 1; S_ true 1 true 1 6; S_ true 0 true 2 2]);
  (783, [S_ true 0 true 0 1; S_ true 0 true 1 4; S_ false 0 true 2 4]);
  (785, [S_ true 0 true 0 1; S_ true 0 true 1 4; S_ true 0 true 2 4]);
  (787, [S_ true 0 true 0 1; S_ true 0 true 1 4; S_ true 1 true 2 4]);
  (789, [S_ true 0 true 0 1; S_ true 1 true 1 5; S_ false 1 true 2 3]);
  (791, [S_ true 0 true 0 1; S_ true 1 true 1 5; S_ false 0 true 2 3]);
  (793, [S_ true 0 true 0 1; S_ true 1 true 1 5; S_ true 0 true 2 3]);
  (795, [S_ true 0 true 0 1; S_ true 1 true 1 5; S_ true 1 true 2 3]);
  (797, [S_ true 0 true 0 1; S_ true 0 true 1 3; S_ false 1 true 2 5]);
  (799, [S_ true 0 true 0 1; S_ true 0 true 1 3; S_ false 0 true 2 5]);
  (801, [S_ true 0 true 0 1; S_ true 0 true 1 3; S_ true 0 true 2 5]);
  (803, [S_ true 0 true 0 1; S_ true 0 true 1 3; S_ true 1 true 2 5]);
  (805, [S_ true 0 true 0 2; S_ true 1 true 1 2; S_ true 1 true 2 5]);
  (807, [S_ false 0 true 0 3; S_ false 1 true 0 5; S_ true 1 true 2 5]);
  (809, [S_ true 0 true 0 3; S_ true 1 true 0 4; S_ true 1 true 2 5]);
  (811, [S_ true 0 true 0 1; S_ true 1 true 1 4; S_ false 0 true 2 2; S_ false 0 true 3 2]);
  (813, [S_ true 0 true 0 1; S_ true 1 true 1 4; S_ false 1 true 2 4]);
  (815, [S_ true 0 true 0 1; S_ true 1 true 1 4; S_ false 0 true 2 4]);
  (817, [S_ true 0 true 0 1; S_ true 1 true 1 4; S_ true 0 true 2 4]);
  (819, [S_ true 0 true 0 1; S_ true 1 true 1 4; S_ true 1 true 2 4]);
  (821, [S_ true 0 true 0 1; S_ true 1 true 1 4; S_ true 0 true 2 2; S_ true 0 true 3 2]);
  (823, [S_ true 0 true 0 3; S_ true 1 true 0 2; S_ false 1 true 2 6]);
  (825, [S_ false 0 true 0 3; S_ false 0 true 1 1; S_ false 1 true 2 6]);
  (827, [S_ true 0 true 0 2; S_ true 1 true 0 3; S_ false 1 true 2 6]);
  (829, [S_ true 0 true 0 1; S_ true 0 true 1 2; S_ false 1 true 2 6]);
  (831, [S_ true 0 true 0 1; S_ true 0 true 1 2; S_ false 0 true 2 6]);
  (833, [S_ true 0 true 0 1; S_ true 0 true 1 2; S_ true 0 true 2 6]);
  (835, [S_ true 0 true 0 1; S_ true 0 true 1 2; S_ true 1 true 2 6]);
  (837, [S_ true 0 true 0 2; S_ true 1 true 0 3; S_ true 1 true 2 6]);
  (839, [S_ false 0 true 0 3; S_ false 1 true 1 4; S_ false 0 true 2 3]);
  (841, [S_ false 0 true 0 3; S_ false 1 true 1 4; S_ true 0 true 2 3]);
  (843, [S_ false 0 true 0 3; S_ false 1 true 1 4; S_ true 0 true 2 1; S_ false 0 true 3 2]);
  (845, [S_ true 0 true 0 6; S_ true 1 true 1 1; S_ true 1 true 2 2]);
  (847, [S_ false 0 true 0 3; S_ false 1 true 1 4; S_ true 1 true 2 3]);
  (849, [S_ true 0 true 0 4; S_ true 1 false 0 2; S_ true 1 true 2 6]);
  (851, [S_ true 0 true 0 1; S_ true 1 true 1 3; S_ false 1 true 2 3; S_ false 0 true 3 2]);
  (853, [S_ true 0 true 0 1; S_ true 1 true 1 3; S_ false 1 true 2 3; S_ true 0 true 3 2]);
  (855, [S_ true 0 true 0 3; S_ true 1 true 1 1; S_ false 1 true 2 5]);
  (857, [S_ false 0 true 0 3; S_ false 0 true 1 2; S_ false 1 true 2 5]);
  (859, [S_ true 0 true 0 2; S_ false 1 true 0 5; S_ false 1 true 2 5]);
  (861, [S_ true 0 true 0 1; S_ true 1 true 1 3; S_ false 1 true 2 5]);
  (863, [S_ false 0 true 0 3; S_ false 0 true 1 2; S_ false 0 true 2 5]);
  (865, [S_ false 0 true 0 3; S_ false 0 true 1 2; S_ true 0 true 2 5]);
  (867, [S_ false 0 true 0 3; S_ false 1 true 1 5; S_ false 0 true 2 2]);
  (869, [S_ false 0 true 0 3; S_ false 1 true 1 5; S_ true 0 true 2 2]);
  (871, [S_ true 0 true 0 3; S_ false 1 true 0 6; S_ false 1 true 2 4]);
  (873, [S_ true 0 true 0 3; S_ true 1 true 1 1; S_ true 1 true 2 5]);
  (875, [S_ false 0 true 0 3; S_ false 1 true 1 5; S_ true 1 true 2 2]);
  (877, [S_ false 0 true 0 3; S_ false 0 true 1 3; S_ false 0 true 2 2; S_ true 0 true 3 2]);
  (879, [S_ false 0 true 0 3; S_ false 0 true 1 3; S_ false 0 true 2 4]);
  (881, [S_ false 0 true 0 3; S_ false 0 true 1 3; S_ true 0 true 2 4]);
  (883, [S_ false 0 true 0 3; S_ false 1 true 1 6; S_ true 0 true 2 1]);
  (885, [S_ false 0 true 0 3; S_ false 0 true 1 5; S_ false 1 true 2 2]);
  (887, [S_ false 0 true 0 3; S_ false 0 true 1 4; S_ false 0 true 2 3]);
  (889, [S_ false 0 true 0 3; S_ false 1 true 1 7]);
  (891, [S_ false 0 true 0 3; S_ false 0 true 1 5; S_ false 0 true 2 2]);
  (893, [S_ false 0 true 0 3; S_ false 0 true 1 5; S_ true 0 true 2 2]);
  (895, [S_ false 0 true 0 3; S_ false 0 true 1 7]);
  (897, [S_ false 0 true 0 3; S_ true 0 true 1 7]);
  (899, [S_ false 0 true 0 3; S_ true 0 true 1 5; S_ false 0 true 2 2]);
  (901, [S_ false 0 true 0 3; S_ true 0 true 1 5; S_ true 0 true 2 2]);
  (903, [S_ false 0 true 0 3; S_ true 1 true 1 7]);
  (905, [S_ false 0 true 0 3; S_ true 0 true 1 4; S_ true 0 true 2 3]);
  (907, [S_ false 0 true 0 3; S_ true 0 true 1 5; S_ true 1 true 2 2]);
  (909, [S_ false 0 true 0 3; S_ true 1 true 1 6; S_ false 0 true 2 1]);
  (911, [S_ false 0 true 0 3; S_ true 0 true 1 3; S_ false 0 true 2 4]);
  (913, [S_ false 0 true 0 3; S_ true 0 true 1 3; S_ true 0 true 2 4]);
  (915, [S_ false 0 true 0 4; S_ false 1 true 1 4; S_ true 1 true 2 2]);
  (917, [S_ false 0 true 0 3; S_ true 1 true 1 5; S_ false 1 true 2 2]);
  (919, [S_ false 0 true 0 3; S_ true 0 true 1 3; S_ true 1 true 2 4]);
  (921, [S_ false 0 true 0 3; S_ true 0 true 1 2; S_ false 1 true 2 5]);
  (923, [S_ false 0 true 0 3; S_ true 1 true 1 5; S_ false 0 true 2 2]);
  (925, [S_ false 0 true 0 3; S_ true 1 true 1 5; S_ true 0 true 2 2]);
  (927, [S_ false 0 true 0 3; S_ true 0 true 1 2; S_ false 0 true 2 5]);
  (929, [S_ false 0 true 0 3; S_ true 0 true 1 2; S_ true 0 true 2 5]);
  (931, [S_ false 0 true 0 4; S_ false 1 true 1 5; S_ true 0 true 2 1]);
  (933, [S_ false 0 true 0 3; S_ true 0 true 1 2; S_ true 0 true 2 3; S_ true 0 true 3 2]);
  (935, [S_ false 0 true 0 3; S_ true 0 true 1 2; S_ true 1 true 2 5]);
  (937, [S_ false 0 true 0 4; S_ false 0 true 1 3; S_ false 1 true 2 3]);
  (939, [S_ true 0 true 0 2; S_ false 1 true 0 6; S_ false 1 true 2 4]);
  (941, [S_ false 0 true 0 4; S_ false 0 true 1 4; S_ false 1 true 2 2]);
  (943, [S_ false 0 true 0 4; S_ false 0 true 1 2; S_ false 0 true 2 4]);
  (945, [S_ false 0 true 0 4; S_ false 1 true 1 6]);
  (947, [S_ false 0 true 0 4; S_ true 0 true 1 5; S_ false 1 true 2 1]);
  (949, [S_ true 0 true 0 2; S_ false 1 true 0 6; S_ true 1 true 2 4]);
  (951, [S_ false 0 true 0 4; S_ false 0 true 1 3; S_ false 0 true 2 3]);
  (953, [S_ false 0 true 0 4; S_ false 0 true 1 3; S_ true 0 true 2 3]);
  (955, [S_ false 0 true 0 4; S_ false 0 true 1 4; S_ false 0 true 2 2]);
  (957, [S_ false 0 true 0 4; S_ false 0 true 1 4; S_ true 0 true 2 2]);
  (959, [S_ false 0 true 0 4; S_ false 0 true 1 6]);
  (961, [S_ false 0 true 0 4; S_ true 0 true 1 6]);
  (963, [S_ false 0 true 0 4; S_ true 0 true 1 4; S_ false 0 true 2 2]);
  (965, [S_ false 0 true 0 4; S_ true 0 true 1 4; S_ true 0 true 2 2]);
  (967, [S_ false 0 true 0 4; S_ true 0 true 1 3; S_ false 0 true 2 3]);
  (969, [S_ false 0 true 0 4; S_ true 0 true 1 3; S_ true 0 true 2 3]);
  (971, [S_ false 0 true 0 4; S_ false 0 true 1 4; S_ true 1 true 2 2]);
  (973, [S_ true 0 true 0 1; S_ false 1 true 0 6; S_ false 1 true 2 4]);
  (975, [S_ false 0 true 0 4; S_ true 1 true 1 6]);
  (977, [S_ false 0 true 0 4; S_ true 0 true 1 2; S_ true 0 true 2 4]);
  (979, [S_ true 0 true 0 1; S_ false 1 true 0 6; S_ true 1 true 2 4]);
  (981, [S_ false 0 true 0 4; S_ true 0 true 1 2; S_ true 0 true 2 2; S_ true 0 true 3 2]);
  (983, [S_ false 0 true 0 5; S_ false 0 true 1 2; S_ false 0 true 2 3]);
  (985, [S_ false 0 true 0 5; S_ false 0 true 1 2; S_ true 0 true 2 3]);
  (987, [S_ false 0 true 0 5; S_ false 0 true 1 3; S_ false 0 true 2 2]);
  (989, [S_ false 0 true 0 5; S_ false 0 true 1 3; S_ true 0 true 2 2]);
  (991, [S_ false 0 true 0 5; S_ false 0 true 1 5]);
  (993, [S_ false 0 true 0 5; S_ true 0 true 1 5]);
  (995, [S_ false 0 true 0 5; S_ true 0 true 1 3; S_ false 0 true 2 2]);
  (997, [S_ false 0 true 0 5; S_ true 0 true 1 3; S_ true 0 true 2 2]);
  (999, [S_ false 0 true 0 5; S_ true 0 true 1 2; S_ false 0 true 2 3]);
  (1001, [S_ false 0 true 0 5; S_ true 0 true 1 2; S_ true 0 true 2 3]);
  (1003, [S_ false 0 true 0 6; S_ false 0 true 1 2; S_ false 0 true 2 2]);
  (1005, [S_ false 0 true 0 6; S_ false 0 true 1 2; S_ true 0 true 2 2]);
  (1007, [S_ false 0 true 0 6; S_ false 0 true 1 4]);
  (1009, [S_ false 0 true 0 6; S_ true 0 true 1 4]);
  (1011, [S_ false 0 true 0 6; S_ true 0 true 1 2; S_ false 0 true 2 2]);
  (1013, [S_ false 0 true 0 6; S_ true 0 true 1 2; S_ true 0 true 2 2]);
  (1015, [S_ false 0 true 0 7; S_ false 0 true 1 3]);
  (1017, [S_ false 0 true 0 7; S_ true 0 true 1 3]);
  (1019, [S_ false 0 true 0 8; S_ false 0 true 1 2]);
  (1021, [S_ false 0 true 0 8; S_ true 0 true 1 2]);
  (1023, [S_ false 0 true 0 10])].

Definition asc_chunk_2 : asc_map := [
  (1025, [S_ true 0 true 0 10]);
  (1027, [S_ true 0 true 0 8; S_ false 0 true 1 2]);
  (1029, [S_ true 0 true 0 8; S_ true 0 true 1 2]);
  (1031, [S_ true 0 true 0 7; S_ false 0 true 1 3]);
  (1033, [S_ true 0 true 0 7; S_ true 0 true 1 3]);
  (1035, [S_ true 0 true 0 6; S_ false 0 true 1 2; S_ false 0 true 2 2]);
  (1037, [S_ true 0 true 0 6; S_ false 0 true 1 2; S_ true 0 true 2 2]);
  (1039, [S_ true 0 true 0 6; S_ false 0 true 1 4]);
  (1041, [S_ true 0 true 0 6; S_ true 0 true 1 4]);
  (1043, [S_ true 0 true 0 6; S_ true 0 true 1 2; S_ false 0 true 2 2]);
  (1045, [S_ true 0 true 0 6; S_ true 0 true 1 2; S_ true 0 true 2 2]);
  (1047, [S_ true 0 true 0 5; S_ false 0 true 1 2; S_ false 0 true 2 3]);
  (1049, [S_ true 0 true 0 5; S_ false 0 true 1 2; S_ true 0 true 2 3]);
  (1051, [S_ true 0 true 0 5; S_ false 0 true 1 3; S_ false 0 true 2 2]);
  (1053, [S_ true 0 true 0 5; S_ false 0 true 1 3; S_ true 0 true 2 2]);
  (1055, [S_ true 0 true 0 5; S_ false 0 true 1 5]);
  (1057, [S_ true 0 true 0 5; S_ true 0 true 1 5]);
  (1059, [S_ true 0 true 0 5; S_ true 0 true 1 3; S_ false 0 true 2 2]);
  (1061, [S_ true 0 true 0 5; S_ true 0 true 1 3; S_ true 0 true 2 2]);
  (1063, [S_ true 0 true 0 5; S_ true 0 true 1 2; S_ false 0 true 2 3]);
  (1065, [S_ true 0 true 0 5; S_ true 0 true 1 2; S_ true 0 true 2 3]);
  (1067, [S_ true 0 true 0 4; S_ false 0 true 1 4; S_ false 1 true 2 2]);
  (1069, [S_ true 0 true 0 1; S_ true 1 true 0 6; S_ false 1 true 2 4]);
  (1071, [S_ true 0 true 0 4; S_ false 1 true 1 6]);
  (1073, [S_ true 0 true 0 4; S_ false 0 true 1 2; S_ true 0 true 2 4]);
  (1075, [S_ true 0 true 0 1; S_ true 1 true 0 6; S_ true 1 true 2 4]);
  (1077, [S_ true 0 true 0 4; S_ false 0 true 1 2; S_ true 0 true 2 2; S_ true 0 true 3 2]);
  (1079, [S_ true 0 true 0 4; S_ false 0 true 1 3; S_ false 0 true 2 3]);
  (1081, [S_ true 0 true 0 4; S_ false 0 true 1 3; S_ true 0 true 2 3]);
  (1083, [S_ true 0 true 0 4; S_ false 0 true 1 4; S_ false 0 true 2 2]);
  (1085, [S_ true 0 true 0 4; S_ false 0 true 1 4; S_ true 0 true 2 2]);
  (1087, [S_ true 0 true 0 4; S_ false 0 true 1 6]);
  (1089, [S_ true 0 true 0 4; S_ true 0 true 1 6]);
  (1091, [S_ true 0 true 0 4; S_ true 0 true 1 4; S_ false 0 true 2 2]);
  (1093, [S_ true 0 true 0 4; S_ true 0 true 1 4; S_ true 0 true 2 2]);
  (1095, [S_ true 0 true 0 4; S_ true 0 true 1 3; S_ false 0 true 2 3]);
  (1097, [S_ true 0 true 0 4; S_ true 0 true 1 3; S_ true 0 true 2 3]);
  (1099, [S_ true 0 true 0 2; S_ true 1 true 0 6; S_ false 1 true 2 4]);
  (1101, [S_ true 0 true 0 4; S_ false 0 true 1 4; S_ true 1 true 2 2]);
  (1103, [S_ true 0 true 0 4; S_ true 0 true 1 2; S_ false 0 true 2 4]);
  (1105, [S_ true 0 true 0 4; S_ true 1 true 1 6]);
  (1107, [S_ true 0 true 0 3; S_ false 1 true 1 5; S_ false 1 true 2 2]);
  (1109, [S_ true 0 true 0 2; S_ true 1 true 0 6; S_ true 1 true 2 4]);
  (1111, [S_ true 0 true 0 3; S_ false 0 true 1 2; S_ false 1 true 2 5]);
  (1113, [S_ false 0 true 0 3; S_ true 1 true 1 2; S_ false 1 true 2 5]);
  (1115, [S_ true 0 true 0 3; S_ false 1 true 1 5; S_ false 0 true 2 2]);
  (1117, [S_ true 0 true 0 3; S_ false 1 true 1 5; S_ true 0 true 2 2]);
  (1119, [S_ true 0 true 0 3; S_ false 0 true 1 2; S_ false 0 true 2 5]);
  (1121, [S_ true 0 true 0 3; S_ false 0 true 1 2; S_ true 0 true 2 5]);
  (1123, [S_ true 0 true 0 4; S_ true 1 true 1 5; S_ true 0 true 2 1]);
  (1125, [S_ true 0 true 0 2; S_ false 1 true 1 3; S_ true 1 true 2 5]);
  (1127, [S_ true 0 true 0 3; S_ false 0 true 1 3; S_ false 1 true 2 4]);
  (1129, [S_ true 0 true 0 3; S_ false 0 true 1 2; S_ true 1 true 2 5]);
  (1131, [S_ true 0 true 0 3; S_ false 0 true 1 3; S_ false 0 true 2 2; S_ false 0 true 3 2]);
  (1133, [S_ true 0 true 0 3; S_ false 1 true 1 6; S_ false 0 true 2 1]);
  (1135, [S_ true 0 true 0 3; S_ false 0 true 1 3; S_ false 0 true 2 4]);
  (1137, [S_ true 0 true 0 3; S_ false 0 true 1 3; S_ true 0 true 2 4]);
  (1139, [S_ true 0 true 0 3; S_ false 0 true 1 5; S_ false 1 true 2 2]);
  (1141, [S_ true 0 true 0 3; S_ false 0 true 1 6; S_ false 1 true 2 1]);
  (1143, [S_ true 0 true 0 3; S_ false 1 true 1 7]);
  (1145, [S_ true 0 true 0 3; S_ false 0 true 1 4; S_ true 0 true 2 3]);
  (1147, [S_ true 0 true 0 3; S_ false 0 true 1 5; S_ false 0 true 2 2]);
  (1149, [S_ true 0 true 0 3; S_ false 0 true 1 5; S_ true 0 true 2 2]);
  (1151, [S_ true 0 true 0 3; S_ false 0 true 1 7]);
  (1153, [S_ true 0 true 0 3; S_ true 0 true 1 7]);
  (1155, [S_ true 0 true 0 3; S_ true 0 true 1 5; S_ false 0 true 2 2]);
  (1157, [S_ true 0 true 0 3; S_ true 0 true 1 5; S_ true 0 true 2 2]);
  (1159, [S_ true 0 true 0 3; S_ true 0 true 1 4; S_ false 0 true 2 3]);
  (1161, [S_ true 0 true 0 3; S_ true 1 true 1 7]);
  (1163, [S_ true 0 true 0 3; S_ true 0 true 1 6; S_ true 1 true 2 1]);
  (1165, [S_ true 0 true 0 3; S_ true 0 true 1 5; S_ true 1 true 2 2]);
  (1167, [S_ true 0 true 0 3; S_ true 0 true 1 3; S_ false 0 true 2 4]);
  (1169, [S_ true 0 true 0 3; S_ true 0 true 1 3; S_ true 0 true 2 4]);
  (1171, [S_ true 0 true 0 3; S_ true 1 true 1 6; S_ true 0 true 2 1]);
  (1173, [S_ true 0 true 0 4; S_ true 1 true 1 4; S_ true 1 true 2 2]);
  (1175, [S_ true 0 true 0 3; S_ true 0 true 1 2; S_ false 1 true 2 5]);
  (1177, [S_ true 0 true 0 3; S_ true 0 true 1 3; S_ true 1 true 2 4]);
  (1179, [S_ true 0 true 0 2; S_ true 1 true 0 5; S_ false 1 true 2 5]);
  (1181, [S_ true 0 true 0 3; S_ true 0 true 1 2; S_ false 0 true 2 3; S_ true 0 true 3 2]);
  (1183, [S_ true 0 true 0 3; S_ true 0 true 1 2; S_ false 0 true 2 5]);
  (1185, [S_ true 0 true 0 3; S_ true 0 true 1 2; S_ true 0 true 2 5]);
  (1187, [S_ true 0 true 0 3; S_ true 1 true 1 5; S_ false 0 true 2 2]);
  (1189, [S_ true 0 true 0 3; S_ true 1 true 1 5; S_ true 0 true 2 2]);
  (1191, [S_ true 0 true 0 3; S_ true 0 true 1 2; S_ true 0 true 2 2; S_ false 0 true 3 3]);
  (1193, [S_ true 0 true 0 3; S_ true 0 true 1 2; S_ true 1 true 2 5]);
  (1195, [S_ true 0 true 0 2; S_ false 1 true 1 4; S_ false 1 true 2 4]);
  (1197, [S_ true 0 true 0 3; S_ true 1 true 1 5; S_ true 1 true 2 2]);
  (1199, [S_ true 0 true 0 2; S_ false 1 true 1 4; S_ false 0 true 2 4]);
  (1201, [S_ true 0 true 0 2; S_ false 1 true 1 4; S_ true 0 true 2 4]);
  (1203, [S_ true 0 true 0 2; S_ false 1 true 1 4; S_ true 0 true 2 2; S_ false 0 true 3 2]);
  (1205, [S_ true 0 true 0 2; S_ false 1 true 1 4; S_ true 1 true 2 4]);
  (1207, [S_ true 0 true 0 3; S_ true 0 true 1 1; S_ false 1 true 2 6]);
  (1209, [S_ false 0 true 0 5; S_ true 1 true 1 2; S_ false 1 true 2 3]);
  (1211, [S_ true 0 true 0 2; S_ false 0 true 1 2; S_ false 1 true 2 6]);
  (1213, [S_ true 0 true 0 1; S_ true 1 true 0 4; S_ false 1 true 2 6]);
  (1215, [S_ true 0 true 0 2; S_ false 0 true 1 2; S_ false 0 true 2 6]);
  (1217, [S_ true 0 true 0 2; S_ false 0 true 1 2; S_ true 0 true 2 6]);
  (1219, [S_ true 0 true 0 1; S_ true 1 true 0 4; S_ true 1 true 2 6]);
  (1221, [S_ true 0 true 0 2; S_ false 0 true 1 2; S_ true 1 true 2 6]);
  (1223, [S_ true 0 true 0 3; S_ true 1 true 1 4; S_ false 0 true 2 3]);
  (1225, [S_ true 0 true 0 3; S_ true 1 true 1 4; S_ true 0 true 2 3]);
  (1227, [S_ true 0 true 0 3; S_ true 1 true 1 4; S_ true 0 true 2 1; S_ false 0 true 3 2]);
  (1229, [S_ true 0 true 0 3; S_ true 1 true 1 4; S_ true 0 true 2 1; S_ true 0 true 3 2]);
  (1231, [S_ false 0 true 0 4; S_ true 1 true 0 2; S_ true 1 true 2 6]);
  (1233, [S_ true 0 true 0 3; S_ true 1 true 1 4; S_ true 1 true 2 3]);
  (1235, [S_ true 0 true 0 2; S_ false 1 true 1 5; S_ false 1 true 2 3]);
  (1237, [S_ true 0 true 0 2; S_ false 1 true 1 5; S_ false 0 true 2 1; S_ true 0 true 3 2]);
  (1239, [S_ true 0 true 0 2; S_ false 1 true 1 5; S_ false 0 true 2 3]);
  (1241, [S_ true 0 true 0 2; S_ false 1 true 1 5; S_ true 0 true 2 3]);
  (1243, [S_ true 0 true 0 2; S_ false 0 true 1 3; S_ false 1 true 2 5]);
  (1245, [S_ true 0 true 0 2; S_ false 1 true 1 5; S_ true 1 true 2 3]);
  (1247, [S_ true 0 true 0 2; S_ false 0 true 1 3; S_ false 0 true 2 5]);
  (1249, [S_ true 0 true 0 2; S_ false 0 true 1 3; S_ true 0 true 2 5]);
  (1251, [S_ true 0 true 0 2; S_ false 0 true 1 3; S_ true 0 true 2 3; S_ false 0 true 3 2]);
  (1253, [S_ true 0 true 0 2; S_ false 0 true 1 3; S_ true 1 true 2 5]);
  (1255, [S_ true 0 true 0 2; S_ false 1 true 1 6; S_ false 1 true 2 2]);
  (1257, [S_ true 0 true 0 2; S_ false 0 true 1 3; S_ true 0 true 2 2; S_ true 0 true 3 3]);
  (1259, [S_ true 0 true 0 2; S_ false 1 true 1 6; S_ false 0 true 2 2]);
  (1261, [S_ true 0 true 0 2; S_ false 1 true 1 6; S_ true 0 true 2 2]);
  (1263, [S_ true 0 true 0 2; S_ false 0 true 1 4; S_ false 0 true 2 4]);
  (1265, [S_ true 0 true 0 2; S_ false 0 true 1 4; S_ true 0 true 2 4]);
  (1267, [S_ true 0 true 0 2; S_ false 0 true 1 5; S_ false 1 true 2 3]);
  (1269, [S_ true 0 true 0 2; S_ false 1 true 1 7; S_ false 0 true 2 1]);
  (1271, [S_ true 0 true 0 2; S_ false 0 true 1 5; S_ false 0 true 2 3]);
  (1273, [S_ true 0 true 0 2; S_ false 0 true 1 5; S_ true 0 true 2 3]);
  (1275, [S_ true 0 true 0 2; S_ false 1 true 1 8]);
  (1277, [S_ true 0 true 0 2; S_ false 0 true 1 6; S_ true 0 true 2 2]);
  (1279, [S_ true 0 true 0 2; S_ false 0 true 1 8]);
  (1281, [S_ true 0 true 0 2; S_ true 0 true 1 8]);
  (1283, [S_ true 0 true 0 2; S_ true 0 true 1 6; S_ false 0 true 2 2]);
  (1285, [S_ true 0 true 0 2; S_ true 1 true 1 8]);
  (1287, [S_ true 0 true 0 2; S_ true 0 true 1 5; S_ false 0 true 2 3]);
  (1289, [S_ true 0 true 0 2; S_ true 0 true 1 5; S_ true 0 true 2 3]);
  (1291, [S_ true 0 true 0 2; S_ true 1 true 1 7; S_ true 0 true 2 1]);
  (1293, [S_ true 0 true 0 2; S_ true 0 true 1 5; S_ true 1 true 2 3]);
  (1295, [S_ true 0 true 0 2; S_ true 0 true 1 4; S_ false 0 true 2 4]);
  (1297, [S_ true 0 true 0 2; S_ true 0 true 1 4; S_ true 0 true 2 4]);
  (1299, [S_ true 0 true 0 2; S_ true 1 true 1 6; S_ false 0 true 2 2]);
  (1301, [S_ true 0 true 0 2; S_ true 1 true 1 6; S_ true 0 true 2 2]);
  (1303, [S_ true 0 true 0 3; S_ true 1 true 0 5; S_ false 1 true 2 5]);
  (1305, [S_ true 0 true 0 2; S_ true 1 true 1 6; S_ true 1 true 2 2]);
  (1307, [S_ true 0 true 0 2; S_ true 0 true 1 3; S_ false 1 true 2 5]);
  (1309, [S_ true 0 true 0 2; S_ true 0 true 1 3; S_ false 0 true 2 3; S_ true 0 true 3 2]);
  (1311, [S_ true 0 true 0 2; S_ true 0 true 1 3; S_ false 0 true 2 5]);
  (1313, [S_ true 0 true 0 2; S_ true 0 true 1 3; S_ true 0 true 2 5]);
  (1315, [S_ true 0 true 0 2; S_ true 1 true 1 5; S_ false 1 true 2 3]);
  (1317, [S_ true 0 true 0 2; S_ true 0 true 1 3; S_ true 1 true 2 5]);
  (1319, [S_ true 0 true 0 2; S_ true 1 true 1 5; S_ false 0 true 2 3]);
  (1321, [S_ true 0 true 0 2; S_ true 1 true 1 5; S_ true 0 true 2 3]);
  (1323, [S_ false 0 true 0 6; S_ true 1 true 1 2; S_ true 1 true 2 2]);
  (1325, [S_ true 0 true 0 2; S_ true 1 true 1 5; S_ true 1 true 2 3]);
  (1327, [S_ true 0 true 0 4; S_ true 1 true 0 2; S_ false 1 true 2 6]);
  (1329, [S_ true 0 true 0 2; S_ true 0 true 1 2; S_ false 0 true 2 2; S_ true 0 true 3 4]);
  (1331, [S_ true 0 true 0 1; S_ false 1 true 1 3; S_ false 1 true 2 4; S_ false 0 true 3 2]);
  (1333, [S_ true 0 true 0 1; S_ false 1 true 1 3; S_ false 1 true 2 4; S_ true 0 true 3 2]);
  (1335, [S_ true 0 true 0 2; S_ true 0 true 1 2; S_ false 0 true 2 3; S_ false 0 true 3 3]);
  (1337, [S_ false 0 true 0 3; S_ true 1 true 1 1; S_ false 1 true 2 6]);
  (1339, [S_ true 0 true 0 2; S_ true 0 true 1 2; S_ false 1 true 2 6]);
  (1341, [S_ true 0 true 0 1; S_ false 1 true 1 3; S_ false 1 true 2 6]);
  (1343, [S_ true 0 true 0 2; S_ true 0 true 1 2; S_ false 0 true 2 6]);
  (1345, [S_ true 0 true 0 2; S_ true 0 true 1 2; S_ true 0 true 2 6]);
  (1347, [S_ true 0 true 0 1; S_ false 1 true 1 3; S_ true 1 true 2 6]);
  (1349, [S_ true 0 true 0 2; S_ true 0 true 1 2; S_ true 1 true 2 6]);
  (1351, [S_ false 0 true 0 3; S_ true 1 true 1 1; S_ true 1 true 2 6]);
  (1353, [S_ true 0 true 0 5; S_ true 1 true 1 2; S_ true 1 true 2 3]);
  (1355, [S_ true 0 true 0 2; S_ true 1 true 1 4; S_ false 1 true 2 4]);
  (1357, [S_ true 0 true 0 2; S_ true 1 true 1 4; S_ false 0 true 2 2; S_ true 0 true 3 2]);
  (1359, [S_ true 0 true 0 2; S_ true 1 true 1 4; S_ false 0 true 2 4]);
  (1361, [S_ true 0 true 0 2; S_ true 1 true 1 4; S_ true 0 true 2 4]);
  (1363, [S_ true 0 true 0 2; S_ true 1 true 1 4; S_ true 0 true 2 2; S_ false 0 true 3 2]);
  (1365, [S_ true 0 true 0 2; S_ true 1 true 1 4; S_ true 1 true 2 4]);
  (1367, [S_ true 0 true 0 2; S_ true 1 true 1 4; S_ true 0 true 2 1; S_ false 0 true 3 3]);
  (1369, [S_ true 0 true 0 2; S_ true 1 true 1 4; S_ true 0 true 2 1; S_ true 0 true 3 3]);
  (1371, [S_ true 0 true 0 2; S_ true 1 true 1 4; S_ true 1 true 2 3; S_ true 0 true 3 1]);
  (1373, [S_ true 0 true 0 3; S_ true 1 true 0 1; S_ false 1 true 2 5; S_ true 0 true 3 2]);
  (1375, [S_ true 0 true 0 1; S_ false 0 true 1 2; S_ false 0 true 2 2; S_ false 0 true 3 5]);
  (1377, [S_ true 0 true 0 4; S_ true 1 true 1 2; S_ true 1 true 2 4]);
  (1379, [S_ true 0 true 0 2; S_ true 1 true 1 4; S_ true 1 true 2 2; S_ false 0 true 3 2]);
  (1381, [S_ true 0 true 0 2; S_ true 1 true 1 4; S_ true 1 true 2 2; S_ true 0 true 3 2]);
  (1383, [S_ true 0 true 0 1; S_ false 0 true 1 2; S_ false 1 true 2 4; S_ false 0 true 3 3]);
  (1385, [S_ true 0 true 0 1; S_ false 0 true 1 2; S_ false 1 true 2 4; S_ true 0 true 3 3]);
  (1387, [S_ true 0 true 0 2; S_ true 0 true 1 1; S_ false 1 true 2 5; S_ false 0 true 3 2]);
  (1389, [S_ true 0 true 0 2; S_ true 0 true 1 1; S_ false 1 true 2 5; S_ true 0 true 3 2]);
  (1391, [S_ true 0 true 0 1; S_ false 0 true 1 2; S_ false 0 true 2 3; S_ false 0 true 3 4]);
  (1393, [S_ false 0 true 0 4; S_ true 1 false 0 2; S_ false 1 true 2 7]);
  (1395, [S_ true 0 true 0 1; S_ false 1 true 1 4; S_ false 2 true 2 5]);
  (1397, [S_ false 0 true 0 7; S_ true 1 true 1 1; S_ false 1 true 2 2]);
  (1399, [S_ true 0 true 0 3; S_ true 1 true 0 1; S_ false 1 true 2 7]);
  (1401, [S_ false 0 true 0 3; S_ true 1 true 0 2; S_ false 1 true 2 7]);
  (1403, [S_ true 0 true 0 2; S_ true 0 true 1 1; S_ false 1 true 2 7]);
  (1405, [S_ true 0 true 0 1; S_ false 0 true 1 2; S_ false 1 true 2 7]);
  (1407, [S_ true 0 true 0 1; S_ false 0 true 1 2; S_ false 0 true 2 7]);
  (1409, [S_ true 0 true 0 1; S_ false 0 true 1 2; S_ true 0 true 2 7]);
  (1411, [S_ true 0 true 0 1; S_ false 0 true 1 2; S_ true 1 true 2 7]);
  (1413, [S_ true 0 true 0 2; S_ true 0 true 1 1; S_ true 1 true 2 7]);
  (1415, [S_ false 0 true 0 3; S_ true 1 true 0 2; S_ true 1 true 2 7]);
  (1417, [S_ true 0 true 0 3; S_ true 1 true 0 1; S_ true 1 true 2 7]);
  (1419, [S_ true 0 true 0 7; S_ true 1 true 1 1; S_ false 1 true 2 2]);
  (1421, [S_ true 0 true 0 1; S_ false 0 true 1 2; S_ true 1 true 2 5; S_ true 0 true 3 2]);
  (1423, [S_ false 0 true 0 4; S_ true 1 false 0 2; S_ true 1 true 2 7]);
  (1425, [S_ false 0 true 0 4; S_ true 1 true 1 1; S_ false 1 true 2 5]);
  (1427, [S_ true 0 true 0 1; S_ false 1 true 1 4; S_ false 1 true 2 3; S_ false 0 true 3 2]);
  (1429, [S_ true 0 true 0 1; S_ false 1 true 1 4; S_ false 1 true 2 3; S_ true 0 true 3 2]);
  (1431, [S_ true 0 true 0 3; S_ true 1 true 1 2; S_ false 1 true 2 5]);
  (1433, [S_ true 0 true 0 1; S_ false 1 true 1 4; S_ false 0 true 2 2; S_ true 0 true 3 3]);
  (1435, [S_ true 0 true 0 2; S_ true 1 true 1 3; S_ false 1 true 2 5]);
  (1437, [S_ true 0 true 0 1; S_ false 1 true 1 4; S_ false 1 true 2 5]);
  (1439, [S_ true 0 true 0 1; S_ false 1 true 1 4; S_ false 0 true 2 5]);
  (1441, [S_ true 0 true 0 1; S_ false 1 true 1 4; S_ true 0 true 2 5]);
  (1443, [S_ true 0 true 0 1; S_ false 1 true 1 4; S_ true 1 true 2 5]);
  (1445, [S_ true 0 true 0 2; S_ true 1 true 1 3; S_ true 1 true 2 5]);
  (1447, [S_ true 0 true 0 1; S_ false 1 true 1 4; S_ true 0 true 2 2; S_ false 0 true 3 3]);
  (1449, [S_ true 0 true 0 3; S_ true 1 true 1 2; S_ true 1 true 2 5]);
  (1451, [S_ true 0 true 0 1; S_ false 1 true 1 4; S_ true 1 true 2 3; S_ false 0 true 3 2]);
  (1453, [S_ true 0 true 0 1; S_ false 1 true 1 4; S_ true 1 true 2 3; S_ true 0 true 3 2]);
  (1455, [S_ false 0 true 0 4; S_ true 1 true 1 1; S_ true 1 true 2 5]);
  (1457, [S_ false 0 true 0 4; S_ true 1 true 0 3; S_ false 1 true 2 6]);
  (1459, [S_ true 0 true 0 1; S_ false 0 true 1 3; S_ false 1 true 2 4; S_ false 0 true 3 2]);
  (1461, [S_ true 0 true 0 1; S_ false 0 true 1 3; S_ false 1 true 2 4; S_ true 0 true 3 2]);
  (1463, [S_ true 0 true 0 3; S_ false 1 true 0 5; S_ false 1 true 2 6]);
  (1465, [S_ false 0 true 0 3; S_ true 1 true 0 4; S_ false 1 true 2 6]);
  (1467, [S_ true 0 true 0 1; S_ false 0 true 1 3; S_ false 0 true 2 4; S_ false 0 true 3 2]);
  (1469, [S_ true 0 true 0 1; S_ false 0 true 1 3; S_ false 1 true 2 6]);
  (1471, [S_ true 0 true 0 1; S_ false 0 true 1 3; S_ false 0 true 2 6]);
  (1473, [S_ true 0 true 0 1; S_ false 0 true 1 3; S_ true 0 true 2 6]);
  (1475, [S_ true 0 true 0 1; S_ false 0 true 1 3; S_ true 1 true 2 6]);
  (1477, [S_ true 0 true 0 1; S_ false 0 true 1 3; S_ true 0 true 2 4; S_ true 0 true 3 2]);
  (1479, [S_ false 0 true 0 3; S_ true 1 true 0 4; S_ true 1 true 2 6]);
  (1481, [S_ true 0 true 0 3; S_ false 1 true 0 5; S_ true 1 true 2 6]);
  (1483, [S_ true 0 true 0 1; S_ false 1 true 1 5; S_ false 0 true 2 2; S_ false 0 true 3 2]);
  (1485, [S_ true 0 true 0 1; S_ false 1 true 1 5; S_ false 1 true 2 4]);
  (1487, [S_ true 0 true 0 1; S_ false 1 true 1 5; S_ false 0 true 2 4]);
  (1489, [S_ true 0 true 0 1; S_ false 1 true 1 5; S_ true 0 true 2 4]);
  (1491, [S_ true 0 true 0 1; S_ false 1 true 1 5; S_ true 1 true 2 4]);
  (1493, [S_ true 0 true 0 1; S_ false 1 true 1 5; S_ true 0 true 2 2; S_ true 0 true 3 2]);
  (1495, [S_ true 0 true 0 6; S_ true 1 true 1 1; S_ false 1 true 2 3]);
  (1497, [S_ true 0 true 0 1; S_ false 0 true 1 4; S_ false 0 true 2 2; S_ true 0 true 3 3]);
  (1499, [S_ true 0 true 0 1; S_ false 0 true 1 4; S_ false 0 true 2 3; S_ false 0 true 3 2]);
  (1501, [S_ true 0 true 0 1; S_ false 0 true 1 4; S_ false 1 true 2 5]);
  (1503, [S_ true 0 true 0 1; S_ false 0 true 1 4; S_ false 0 true 2 5]);
  (1505, [S_ true 0 true 0 1; S_ false 0 true 1 4; S_ true 0 true 2 5]);
  (1507, [S_ true 0 true 0 1; S_ false 0 true 1 4; S_ true 1 true 2 5]);
  (1509, [S_ true 0 true 0 1; S_ false 1 true 1 6; S_ false 1 true 2 3]);
  (1511, [S_ true 0 true 0 1; S_ false 1 true 1 6; S_ false 0 true 2 3]);
  (1513, [S_ true 0 true 0 1; S_ false 1 true 1 6; S_ true 0 true 2 3]);
  (1515, [S_ true 0 true 0 1; S_ false 1 true 1 6; S_ true 1 true 2 3]);
  (1517, [S_ true 0 true 0 1; S_ false 0 true 1 5; S_ false 1 true 2 4]);
  (1519, [S_ true 0 true 0 1; S_ false 0 true 1 5; S_ false 0 true 2 4]);
  (1521, [S_ true 0 true 0 1; S_ false 0 true 1 5; S_ true 0 true 2 4]);
  (1523, [S_ true 0 true 0 1; S_ false 1 true 1 7; S_ false 0 true 2 2]);
  (1525, [S_ true 0 true 0 1; S_ false 1 true 1 7; S_ true 0 true 2 2]);
  (1527, [S_ true 0 true 0 1; S_ false 0 true 1 6; S_ false 0 true 2 3]);
  (1529, [S_ true 0 true 0 1; S_ false 0 true 1 6; S_ true 0 true 2 3]);
  (1531, [S_ true 0 true 0 1; S_ false 0 true 1 7; S_ false 0 true 2 2]);
  (1533, [S_ true 0 true 0 1; S_ false 1 true 1 9]);
  (1535, [S_ true 0 true 0 1; S_ false 0 true 1 9])].

Definition asc_chunk_3 : asc_map := [
  (1537, [S_ true 0 true 0 1; S_ true 0 true 1 9]);
  (1539, [S_ true 0 true 0 1; S_ true 1 true 1 9]);
  (1541, [S_ true 0 true 0 1; S_ true 0 true 1 7; S_ true 0 true 2 2]);
  (1543, [S_ true 0 true 0 1; S_ true 0 true 1 6; S_ false 0 true 2 3]);
  (1545, [S_ true 0 true 0 1; S_ true 0 true 1 6; S_ true 0 true 2 3]);
  (1547, [S_ true 0 true 0 1; S_ true 1 true 1 7; S_ false 0 true 2 2]);
  (1549, [S_ true 0 true 0 1; S_ true 1 true 1 7; S_ true 0 true 2 2]);
  (1551, [S_ true 0 true 0 1; S_ true 0 true 1 5; S_ false 0 true 2 4]);
  (1553, [S_ true 0 true 0 1; S_ true 0 true 1 5; S_ true 0 true 2 4]);
  (1555, [S_ true 0 true 0 1; S_ true 0 true 1 5; S_ true 1 true 2 4]);
  (1557, [S_ true 0 true 0 1; S_ true 1 true 1 6; S_ false 1 true 2 3]);
  (1559, [S_ true 0 true 0 1; S_ true 1 true 1 6; S_ false 0 true 2 3]);
  (1561, [S_ true 0 true 0 1; S_ true 1 true 1 6; S_ true 0 true 2 3]);
  (1563, [S_ true 0 true 0 1; S_ true 1 true 1 6; S_ true 1 true 2 3]);
  (1565, [S_ true 0 true 0 1; S_ true 0 true 1 4; S_ false 1 true 2 5]);
  (1567, [S_ true 0 true 0 1; S_ true 0 true 1 4; S_ false 0 true 2 5]);
  (1569, [S_ true 0 true 0 1; S_ true 0 true 1 4; S_ true 0 true 2 5]);
  (1571, [S_ true 0 true 0 1; S_ true 0 true 1 4; S_ true 1 true 2 5]);
  (1573, [S_ true 0 true 0 1; S_ true 0 true 1 4; S_ true 0 true 2 3; S_ true 0 true 3 2]);
  (1575, [S_ false 0 true 0 3; S_ false 1 true 1 3; S_ true 1 true 2 5]);
  (1577, [S_ true 0 true 0 1; S_ true 0 true 1 4; S_ true 0 true 2 2; S_ true 0 true 3 3]);
  (1579, [S_ true 0 true 0 1; S_ true 1 true 1 5; S_ false 0 true 2 2; S_ false 0 true 3 2]);
  (1581, [S_ true 0 true 0 1; S_ true 1 true 1 5; S_ false 1 true 2 4]);
  (1583, [S_ true 0 true 0 1; S_ true 1 true 1 5; S_ false 0 true 2 4]);
  (1585, [S_ true 0 true 0 1; S_ true 1 true 1 5; S_ true 0 true 2 4]);
  (1587, [S_ true 0 true 0 1; S_ true 1 true 1 5; S_ true 1 true 2 4]);
  (1589, [S_ true 0 true 0 1; S_ true 1 true 1 5; S_ true 0 true 2 2; S_ true 0 true 3 2]);
  (1591, [S_ true 0 true 0 3; S_ true 1 true 0 4; S_ false 1 true 2 6]);
  (1593, [S_ false 0 true 0 3; S_ false 1 true 0 5; S_ false 1 true 2 6]);
  (1595, [S_ true 0 true 0 2; S_ true 1 true 1 2; S_ false 1 true 2 6]);
  (1597, [S_ true 0 true 0 1; S_ true 0 true 1 3; S_ false 1 true 2 6]);
  (1599, [S_ true 0 true 0 1; S_ true 0 true 1 3; S_ false 0 true 2 6]);
  (1601, [S_ true 0 true 0 1; S_ true 0 true 1 3; S_ true 0 true 2 6]);
  (1603, [S_ true 0 true 0 1; S_ true 0 true 1 3; S_ true 1 true 2 6]);
  (1605, [S_ true 0 true 0 2; S_ true 1 true 1 2; S_ true 1 true 2 6]);
  (1607, [S_ false 0 true 0 3; S_ false 1 true 0 5; S_ true 1 true 2 6]);
  (1609, [S_ true 0 true 0 3; S_ true 1 true 0 4; S_ true 1 true 2 6]);
  (1611, [S_ true 0 true 0 1; S_ true 0 true 1 3; S_ true 1 true 2 4; S_ false 0 true 3 2]);
  (1613, [S_ true 0 true 0 1; S_ true 0 true 1 3; S_ true 1 true 2 4; S_ true 0 true 3 2]);
  (1615, [S_ true 0 true 0 4; S_ true 1 true 1 1; S_ false 1 true 2 5]);
  (1617, [S_ true 0 true 0 4; S_ true 1 true 0 3; S_ true 1 true 2 6]);
  (1619, [S_ true 0 true 0 1; S_ true 1 true 1 4; S_ false 1 true 2 3; S_ false 0 true 3 2]);
  (1621, [S_ true 0 true 0 1; S_ true 1 true 1 4; S_ false 1 true 2 3; S_ true 0 true 3 2]);
  (1623, [S_ true 0 true 0 1; S_ true 1 true 1 4; S_ false 0 true 2 2; S_ false 0 true 3 3]);
  (1625, [S_ true 0 true 0 6; S_ true 1 true 1 1; S_ true 1 true 2 3]);
  (1627, [S_ true 0 true 0 1; S_ true 1 true 1 4; S_ false 0 true 2 3; S_ false 0 true 3 2]);
  (1629, [S_ true 0 true 0 1; S_ true 1 true 1 4; S_ false 1 true 2 5]);
  (1631, [S_ true 0 true 0 1; S_ true 1 true 1 4; S_ false 0 true 2 5]);
  (1633, [S_ true 0 true 0 1; S_ true 1 true 1 4; S_ true 0 true 2 5]);
  (1635, [S_ true 0 true 0 1; S_ true 1 true 1 4; S_ true 1 true 2 5]);
  (1637, [S_ true 0 true 0 1; S_ true 1 true 1 4; S_ true 0 true 2 3; S_ true 0 true 3 2]);
  (1639, [S_ true 0 true 0 1; S_ true 1 true 1 4; S_ true 0 true 2 2; S_ false 0 true 3 3]);
  (1641, [S_ true 0 true 0 1; S_ true 1 true 1 4; S_ true 0 true 2 2; S_ true 0 true 3 3]);
  (1643, [S_ true 0 true 0 1; S_ true 1 true 1 4; S_ true 1 true 2 3; S_ false 0 true 3 2]);
  (1645, [S_ true 0 true 0 1; S_ true 1 true 1 4; S_ true 1 true 2 3; S_ true 0 true 3 2]);
  (1647, [S_ true 0 true 0 4; S_ true 1 false 0 2; S_ false 1 true 2 7]);
  (1649, [S_ true 0 true 0 4; S_ true 1 true 1 1; S_ true 1 true 2 5]);
  (1651, [S_ false 0 true 0 7; S_ true 1 true 1 1; S_ true 1 true 2 2]);
  (1653, [S_ true 0 true 0 1; S_ true 0 true 1 2; S_ false 1 true 2 5; S_ true 0 true 3 2]);
  (1655, [S_ true 0 true 0 3; S_ true 1 true 0 2; S_ false 1 true 2 7]);
  (1657, [S_ false 0 true 0 3; S_ false 0 true 1 1; S_ false 1 true 2 7]);
  (1659, [S_ true 0 true 0 2; S_ true 1 true 0 3; S_ false 1 true 2 7]);
  (1661, [S_ true 0 true 0 1; S_ true 0 true 1 2; S_ false 1 true 2 7]);
  (1663, [S_ true 0 true 0 1; S_ true 0 true 1 2; S_ false 0 true 2 7]);
  (1665, [S_ true 0 true 0 1; S_ true 0 true 1 2; S_ true 0 true 2 7]);
  (1667, [S_ true 0 true 0 1; S_ true 0 true 1 2; S_ true 1 true 2 7]);
  (1669, [S_ true 0 true 0 2; S_ true 1 true 0 3; S_ true 1 true 2 7]);
  (1671, [S_ false 0 true 0 3; S_ false 0 true 1 1; S_ true 1 true 2 7]);
  (1673, [S_ true 0 true 0 3; S_ true 1 true 0 2; S_ true 1 true 2 7]);
  (1675, [S_ false 0 true 0 3; S_ false 1 true 1 4; S_ false 0 true 2 2; S_ false 0 true 3 2]);
  (1677, [S_ true 0 true 0 7; S_ true 1 true 1 1; S_ true 1 true 2 2]);
  (1679, [S_ false 0 true 0 3; S_ false 1 true 1 4; S_ false 0 true 2 4]);
  (1681, [S_ false 0 true 0 3; S_ false 1 true 1 4; S_ true 0 true 2 4]);
  (1683, [S_ true 0 true 0 1; S_ true 1 true 1 4; S_ true 2 true 2 5]);
  (1685, [S_ false 0 true 0 3; S_ false 1 true 1 4; S_ true 0 true 2 2; S_ true 0 true 3 2]);
  (1687, [S_ false 0 true 0 3; S_ false 1 true 1 4; S_ true 1 true 2 4]);
  (1689, [S_ false 0 true 0 3; S_ false 1 true 1 4; S_ true 0 true 2 1; S_ true 0 true 3 3]);
  (1691, [S_ true 0 true 0 3; S_ true 1 true 1 1; S_ false 1 true 2 4; S_ false 0 true 3 2]);
  (1693, [S_ true 0 true 0 3; S_ true 1 true 1 1; S_ false 1 true 2 4; S_ true 0 true 3 2]);
  (1695, [S_ false 0 true 0 4; S_ false 1 true 1 3; S_ true 1 true 2 4]);
  (1697, [S_ false 0 true 0 5; S_ true 1 false 0 2; S_ false 1 true 2 6]);
  (1699, [S_ true 0 true 0 3; S_ true 1 true 0 2; S_ true 1 true 2 5; S_ false 0 true 3 2]);
  (1701, [S_ false 0 true 0 6; S_ false 1 true 1 3; S_ false 1 true 2 2]);
  (1703, [S_ true 0 true 0 1; S_ true 1 true 1 3; S_ false 1 true 2 3; S_ false 0 true 3 3]);
  (1705, [S_ false 0 true 0 5; S_ false 1 true 1 3; S_ false 1 true 2 3]);
  (1707, [S_ true 0 true 0 2; S_ false 1 true 0 5; S_ false 1 true 2 4; S_ false 0 true 3 2]);
  (1709, [S_ true 0 true 0 2; S_ false 1 true 0 5; S_ false 1 true 2 4; S_ true 0 true 3 2]);
  (1711, [S_ false 0 true 0 3; S_ false 0 true 1 2; S_ false 0 true 2 2; S_ false 0 true 3 4]);
  (1713, [S_ false 0 true 0 3; S_ false 0 true 1 2; S_ false 0 true 2 2; S_ true 0 true 3 4]);
  (1715, [S_ true 0 true 0 1; S_ true 1 true 1 3; S_ false 1 true 2 4; S_ false 0 true 3 2]);
  (1717, [S_ true 0 true 0 1; S_ true 1 true 1 3; S_ false 1 true 2 4; S_ true 0 true 3 2]);
  (1719, [S_ true 0 true 0 3; S_ true 1 true 1 1; S_ false 1 true 2 6]);
  (1721, [S_ false 0 true 0 3; S_ false 0 true 1 2; S_ false 1 true 2 6]);
  (1723, [S_ true 0 true 0 2; S_ false 1 true 0 5; S_ false 1 true 2 6]);
  (1725, [S_ true 0 true 0 1; S_ true 1 true 1 3; S_ false 1 true 2 6]);
  (1727, [S_ false 0 true 0 3; S_ false 0 true 1 2; S_ false 0 true 2 6]);
  (1729, [S_ false 0 true 0 3; S_ false 0 true 1 2; S_ true 0 true 2 6]);
  (1731, [S_ true 0 true 0 1; S_ true 1 true 1 3; S_ true 1 true 2 6]);
  (1733, [S_ true 0 true 0 2; S_ false 1 true 0 5; S_ true 1 true 2 6]);
  (1735, [S_ false 0 true 0 3; S_ false 1 true 1 5; S_ false 0 true 2 3]);
  (1737, [S_ false 0 true 0 3; S_ false 1 true 1 5; S_ true 0 true 2 3]);
  (1739, [S_ false 0 true 0 3; S_ false 1 true 1 5; S_ true 0 true 2 1; S_ false 0 true 3 2]);
  (1741, [S_ false 0 true 0 3; S_ false 1 true 1 5; S_ true 0 true 2 1; S_ true 0 true 3 2]);
  (1743, [S_ false 0 true 0 3; S_ false 1 true 1 5; S_ true 1 true 2 3]);
  (1745, [S_ false 0 true 0 3; S_ false 0 true 1 2; S_ true 0 true 2 2; S_ true 0 true 3 4]);
  (1747, [S_ true 0 true 0 2; S_ false 1 true 0 5; S_ true 1 true 2 4; S_ false 0 true 3 2]);
  (1749, [S_ true 0 true 0 2; S_ false 1 true 0 5; S_ true 1 true 2 4; S_ true 0 true 3 2]);
  (1751, [S_ true 0 true 0 3; S_ false 1 true 0 6; S_ false 1 true 2 5]);
  (1753, [S_ false 0 true 0 3; S_ false 0 true 1 3; S_ false 1 true 2 5]);
  (1755, [S_ true 0 true 0 6; S_ false 1 true 1 3; S_ false 1 true 2 2]);
  (1757, [S_ false 0 true 0 3; S_ false 1 true 1 6; S_ false 1 true 2 2]);
  (1759, [S_ false 0 true 0 3; S_ false 0 true 1 3; S_ false 0 true 2 5]);
  (1761, [S_ false 0 true 0 3; S_ false 0 true 1 3; S_ true 0 true 2 5]);
  (1763, [S_ false 0 true 0 3; S_ false 1 true 1 6; S_ false 0 true 2 2]);
  (1765, [S_ false 0 true 0 3; S_ false 1 true 1 6; S_ true 0 true 2 2]);
  (1767, [S_ false 0 true 0 3; S_ false 0 true 1 3; S_ true 1 true 2 5]);
  (1769, [S_ true 0 true 0 3; S_ false 1 true 0 6; S_ true 1 true 2 5]);
  (1771, [S_ false 0 true 0 3; S_ false 1 true 1 6; S_ true 1 true 2 2]);
  (1773, [S_ false 0 true 0 3; S_ false 0 true 1 4; S_ false 0 true 2 2; S_ true 0 true 3 2]);
  (1775, [S_ false 0 true 0 3; S_ false 0 true 1 4; S_ false 0 true 2 4]);
  (1777, [S_ false 0 true 0 3; S_ false 0 true 1 4; S_ true 0 true 2 4]);
  (1779, [S_ false 0 true 0 3; S_ false 1 true 1 7; S_ true 0 true 2 1]);
  (1781, [S_ false 0 true 0 3; S_ false 0 true 1 6; S_ false 1 true 2 2]);
  (1783, [S_ false 0 true 0 3; S_ false 0 true 1 5; S_ false 0 true 2 3]);
  (1785, [S_ false 0 true 0 3; S_ false 1 true 1 8]);
  (1787, [S_ false 0 true 0 3; S_ false 0 true 1 6; S_ false 0 true 2 2]);
  (1789, [S_ false 0 true 0 3; S_ false 0 true 1 6; S_ true 0 true 2 2]);
  (1791, [S_ false 0 true 0 3; S_ false 0 true 1 8]);
  (1793, [S_ false 0 true 0 3; S_ true 0 true 1 8]);
  (1795, [S_ false 0 true 0 3; S_ true 0 true 1 6; S_ false 0 true 2 2]);
  (1797, [S_ false 0 true 0 3; S_ true 0 true 1 6; S_ true 0 true 2 2]);
  (1799, [S_ false 0 true 0 3; S_ true 1 true 1 8]);
  (1801, [S_ false 0 true 0 3; S_ true 0 true 1 5; S_ true 0 true 2 3]);
  (1803, [S_ false 0 true 0 3; S_ true 0 true 1 6; S_ true 1 true 2 2]);
  (1805, [S_ false 0 true 0 3; S_ true 1 true 1 7; S_ false 0 true 2 1]);
  (1807, [S_ false 0 true 0 3; S_ true 0 true 1 4; S_ false 0 true 2 4]);
  (1809, [S_ false 0 true 0 3; S_ true 0 true 1 4; S_ true 0 true 2 4]);
  (1811, [S_ false 0 true 0 3; S_ true 0 true 1 4; S_ true 0 true 2 2; S_ false 0 true 3 2]);
  (1813, [S_ false 0 true 0 3; S_ true 1 true 1 6; S_ false 1 true 2 2]);
  (1815, [S_ false 0 true 0 3; S_ true 0 true 1 4; S_ true 1 true 2 4]);
  (1817, [S_ false 0 true 0 3; S_ true 0 true 1 3; S_ false 1 true 2 5]);
  (1819, [S_ false 0 true 0 3; S_ true 1 true 1 6; S_ false 0 true 2 2]);
  (1821, [S_ false 0 true 0 3; S_ true 1 true 1 6; S_ true 0 true 2 2]);
  (1823, [S_ false 0 true 0 3; S_ true 0 true 1 3; S_ false 0 true 2 5]);
  (1825, [S_ false 0 true 0 3; S_ true 0 true 1 3; S_ true 0 true 2 5]);
  (1827, [S_ false 0 true 0 3; S_ true 1 true 1 6; S_ true 1 true 2 2]);
  (1829, [S_ false 0 true 0 5; S_ false 1 true 1 4; S_ false 1 true 2 2]);
  (1831, [S_ false 0 true 0 3; S_ true 0 true 1 3; S_ true 1 true 2 5]);
  (1833, [S_ false 0 true 0 3; S_ true 0 true 1 3; S_ true 0 true 2 2; S_ true 0 true 3 3]);
  (1835, [S_ false 0 true 0 3; S_ true 0 true 1 4; S_ true 1 true 2 2; S_ false 0 true 3 2]);
  (1837, [S_ false 0 true 0 3; S_ true 0 true 1 3; S_ true 1 true 2 4; S_ false 0 true 3 1]);
  (1839, [S_ false 0 true 0 3; S_ true 0 true 1 2; S_ false 0 true 2 2; S_ false 0 true 3 4]);
  (1841, [S_ false 0 true 0 3; S_ true 1 true 1 5; S_ false 1 true 2 3]);
  (1843, [S_ false 0 true 0 3; S_ true 1 true 1 5; S_ false 0 true 2 1; S_ false 0 true 3 2]);
  (1845, [S_ false 0 true 0 4; S_ false 1 true 1 5; S_ false 1 true 2 2]);
  (1847, [S_ false 0 true 0 3; S_ true 1 true 1 5; S_ false 0 true 2 3]);
  (1849, [S_ false 0 true 0 3; S_ true 1 true 1 5; S_ true 0 true 2 3]);
  (1851, [S_ false 0 true 0 3; S_ true 0 true 1 2; S_ false 0 true 2 4; S_ false 0 true 3 2]);
  (1853, [S_ true 0 true 0 1; S_ false 1 true 0 5; S_ false 1 true 2 6]);
  (1855, [S_ false 0 true 0 3; S_ true 0 true 1 2; S_ false 0 true 2 6]);
  (1857, [S_ false 0 true 0 3; S_ true 0 true 1 2; S_ true 0 true 2 6]);
  (1859, [S_ false 0 true 0 4; S_ false 1 true 1 5; S_ false 0 true 2 2]);
  (1861, [S_ false 0 true 0 4; S_ false 1 true 1 5; S_ true 0 true 2 2]);
  (1863, [S_ false 0 true 0 3; S_ true 0 true 1 2; S_ true 1 true 2 6]);
  (1865, [S_ false 0 true 0 3; S_ true 0 true 1 2; S_ true 0 true 2 3; S_ true 0 true 3 3]);
  (1867, [S_ true 0 true 0 1; S_ false 1 true 0 5; S_ true 1 true 2 4; S_ false 0 true 3 2]);
  (1869, [S_ true 0 true 0 1; S_ false 1 true 0 5; S_ true 1 true 2 4; S_ true 0 true 3 2]);
  (1871, [S_ false 0 true 0 4; S_ false 0 true 1 1; S_ true 1 true 2 6]);
  (1873, [S_ false 0 true 0 4; S_ false 0 true 1 2; S_ false 1 true 2 5]);
  (1875, [S_ false 0 true 0 4; S_ false 1 true 1 5; S_ true 1 true 2 2]);
  (1877, [S_ true 0 true 0 2; S_ false 1 true 0 6; S_ false 1 true 2 4; S_ false 0 true 3 1]);
  (1879, [S_ false 0 true 0 4; S_ false 0 true 1 2; S_ false 0 true 2 2; S_ false 0 true 3 3]);
  (1881, [S_ true 0 true 0 5; S_ false 1 true 1 3; S_ true 1 true 2 3]);
  (1883, [S_ true 0 true 0 2; S_ false 1 true 0 6; S_ false 1 true 2 5]);
  (1885, [S_ true 0 true 0 6; S_ false 1 true 1 3; S_ true 1 true 2 2]);
  (1887, [S_ false 0 true 0 4; S_ false 0 true 1 2; S_ false 0 true 2 5]);
  (1889, [S_ false 0 true 0 4; S_ false 0 true 1 2; S_ true 0 true 2 5]);
  (1891, [S_ false 0 true 0 4; S_ false 1 true 1 6; S_ true 0 true 2 1]);
  (1893, [S_ true 0 true 0 2; S_ false 1 true 0 6; S_ true 1 true 2 5]);
  (1895, [S_ true 0 true 0 3; S_ false 1 true 0 7; S_ false 1 true 2 4]);
  (1897, [S_ false 0 true 0 3; S_ true 1 true 1 4; S_ false 1 true 2 4]);
  (1899, [S_ false 0 true 0 4; S_ false 0 true 1 3; S_ false 0 true 2 2; S_ false 0 true 3 2]);
  (1901, [S_ false 0 true 0 4; S_ false 0 true 1 5; S_ false 1 true 2 2]);
  (1903, [S_ false 0 true 0 4; S_ false 0 true 1 3; S_ false 0 true 2 4]);
  (1905, [S_ false 0 true 0 4; S_ false 1 true 1 7]);
  (1907, [S_ false 0 true 0 4; S_ true 0 true 1 6; S_ false 1 true 2 1]);
  (1909, [S_ false 0 true 0 4; S_ true 0 true 1 5; S_ false 1 true 2 2]);
  (1911, [S_ false 0 true 0 4; S_ false 0 true 1 4; S_ false 0 true 2 3]);
  (1913, [S_ false 0 true 0 4; S_ false 0 true 1 4; S_ true 0 true 2 3]);
  (1915, [S_ false 0 true 0 4; S_ false 0 true 1 5; S_ false 0 true 2 2]);
  (1917, [S_ false 0 true 0 4; S_ false 0 true 1 5; S_ true 0 true 2 2]);
  (1919, [S_ false 0 true 0 4; S_ false 0 true 1 7]);
  (1921, [S_ false 0 true 0 4; S_ true 0 true 1 7]);
  (1923, [S_ false 0 true 0 4; S_ true 0 true 1 5; S_ false 0 true 2 2]);
  (1925, [S_ false 0 true 0 4; S_ true 0 true 1 5; S_ true 0 true 2 2]);
  (1927, [S_ false 0 true 0 4; S_ true 0 true 1 4; S_ false 0 true 2 3]);
  (1929, [S_ false 0 true 0 4; S_ true 0 true 1 4; S_ true 0 true 2 3]);
  (1931, [S_ false 0 true 0 4; S_ false 0 true 1 5; S_ true 1 true 2 2]);
  (1933, [S_ false 0 true 0 4; S_ false 0 true 1 6; S_ true 1 true 2 1]);
  (1935, [S_ false 0 true 0 4; S_ true 1 true 1 7]);
  (1937, [S_ false 0 true 0 4; S_ true 0 true 1 3; S_ true 0 true 2 4]);
  (1939, [S_ false 0 true 0 4; S_ true 0 true 1 5; S_ true 1 true 2 2]);
  (1941, [S_ false 0 true 0 4; S_ true 0 true 1 3; S_ true 0 true 2 2; S_ true 0 true 3 2]);
  (1943, [S_ false 0 true 0 3; S_ false 1 true 0 7; S_ true 1 true 2 4]);
  (1945, [S_ false 0 true 0 5; S_ false 0 true 1 3; S_ false 1 true 2 3]);
  (1947, [S_ true 0 true 0 5; S_ false 1 true 1 4; S_ false 1 true 2 2]);
  (1949, [S_ false 0 true 0 4; S_ true 1 true 1 6; S_ false 0 true 2 1]);
  (1951, [S_ false 0 true 0 4; S_ true 0 true 1 2; S_ false 0 true 2 5]);
  (1953, [S_ false 0 true 0 5; S_ false 1 true 1 6]);
  (1955, [S_ true 0 true 0 1; S_ false 1 true 0 6; S_ true 1 true 2 5]);
  (1957, [S_ false 0 true 0 5; S_ true 0 true 1 4; S_ false 1 true 2 2]);
  (1959, [S_ false 0 true 0 4; S_ true 0 true 1 2; S_ true 0 true 2 2; S_ false 0 true 3 3]);
  (1961, [S_ false 0 true 0 5; S_ true 0 true 1 3; S_ false 1 true 2 3]);
  (1963, [S_ true 0 true 0 2; S_ false 1 true 0 7; S_ false 1 true 2 4]);
  (1965, [S_ false 0 true 0 4; S_ true 1 true 1 5; S_ false 1 true 2 2]);
  (1967, [S_ false 0 true 0 5; S_ false 0 true 1 2; S_ false 0 true 2 4]);
  (1969, [S_ false 0 true 0 5; S_ false 0 true 1 2; S_ true 0 true 2 4]);
  (1971, [S_ false 0 true 0 5; S_ false 0 true 1 2; S_ true 0 true 2 2; S_ false 0 true 3 2]);
  (1973, [S_ true 0 true 0 2; S_ false 1 true 0 7; S_ true 1 true 2 4]);
  (1975, [S_ false 0 true 0 5; S_ false 0 true 1 3; S_ false 0 true 2 3]);
  (1977, [S_ false 0 true 0 5; S_ false 0 true 1 3; S_ true 0 true 2 3]);
  (1979, [S_ false 0 true 0 5; S_ false 0 true 1 4; S_ false 0 true 2 2]);
  (1981, [S_ false 0 true 0 5; S_ false 0 true 1 4; S_ true 0 true 2 2]);
  (1983, [S_ false 0 true 0 5; S_ false 0 true 1 6]);
  (1985, [S_ false 0 true 0 5; S_ true 0 true 1 6]);
  (1987, [S_ false 0 true 0 5; S_ true 0 true 1 4; S_ false 0 true 2 2]);
  (1989, [S_ false 0 true 0 5; S_ true 0 true 1 4; S_ true 0 true 2 2]);
  (1991, [S_ false 0 true 0 5; S_ true 0 true 1 3; S_ false 0 true 2 3]);
  (1993, [S_ false 0 true 0 5; S_ true 0 true 1 3; S_ true 0 true 2 3]);
  (1995, [S_ false 0 true 0 4; S_ true 1 true 1 5; S_ true 1 true 2 2]);
  (1997, [S_ true 0 true 0 1; S_ false 1 true 0 7; S_ false 1 true 2 4]);
  (1999, [S_ false 0 true 0 5; S_ true 0 true 1 2; S_ false 0 true 2 4]);
  (2001, [S_ false 0 true 0 5; S_ true 0 true 1 2; S_ true 0 true 2 4]);
  (2003, [S_ true 0 true 0 1; S_ false 1 true 0 7; S_ true 1 true 2 4]);
  (2005, [S_ false 0 true 0 5; S_ true 0 true 1 2; S_ true 0 true 2 2; S_ true 0 true 3 2]);
  (2007, [S_ false 0 true 0 6; S_ false 0 true 1 2; S_ false 0 true 2 3]);
  (2009, [S_ false 0 true 0 6; S_ false 0 true 1 2; S_ true 0 true 2 3]);
  (2011, [S_ false 0 true 0 6; S_ false 0 true 1 3; S_ false 0 true 2 2]);
  (2013, [S_ false 0 true 0 6; S_ false 0 true 1 3; S_ true 0 true 2 2]);
  (2015, [S_ false 0 true 0 6; S_ false 0 true 1 5]);
  (2017, [S_ false 0 true 0 6; S_ true 0 true 1 5]);
  (2019, [S_ false 0 true 0 6; S_ true 0 true 1 3; S_ false 0 true 2 2]);
  (2021, [S_ false 0 true 0 6; S_ true 0 true 1 3; S_ true 0 true 2 2]);
  (2023, [S_ false 0 true 0 6; S_ true 0 true 1 2; S_ false 0 true 2 3]);
  (2025, [S_ false 0 true 0 6; S_ true 0 true 1 2; S_ true 0 true 2 3]);
  (2027, [S_ false 0 true 0 7; S_ false 0 true 1 2; S_ false 0 true 2 2]);
  (2029, [S_ false 0 true 0 7; S_ false 0 true 1 2; S_ true 0 true 2 2]);
  (2031, [S_ false 0 true 0 7; S_ false 0 true 1 4]);
  (2033, [S_ false 0 true 0 7; S_ true 0 true 1 4]);
  (2035, [S_ false 0 true 0 7; S_ true 0 true 1 2; S_ false 0 true 2 2]);
  (2037, [S_ false 0 true 0 7; S_ true 0 true 1 2; S_ true 0 true 2 2]);
  (2039, [S_ false 0 true 0 8; S_ false 0 true 1 3]);
  (2041, [S_ false 0 true 0 8; S_ true 0 true 1 3]);
  (2043, [S_ false 0 true 0 9; S_ false 0 true 1 2]);
  (2045, [S_ false 0 true 0 9; S_ true 0 true 1 2]);
  (2047, [S_ false 0 true 0 11])].

Definition asc_chunk_4 : asc_map := [
  (2049, [S_ true 0 true 0 11]);
  (2051, [S_ true 0 true 0 9; S_ false 0 true 1 2]);
  (2053, [S_ true 0 true 0 9; S_ true 0 true 1 2]);
  (2055, [S_ true 0 true 0 8; S_ false 0 true 1 3]);
  (2057, [S_ true 0 true 0 8; S_ true 0 true 1 3]);
  (2059, [S_ true 0 true 0 7; S_ false 0 true 1 2; S_ false 0 true 2 2]);
  (2061, [S_ true 0 true 0 7; S_ false 0 true 1 2; S_ true 0 true 2 2]);
  (2063, [S_ true 0 true 0 7; S_ false 0 true 1 4]);
  (2065, [S_ true 0 true 0 7; S_ true 0 true 1 4]);
  (2067, [S_ true 0 true 0 7; S_ true 0 true 1 2; S_ false 0 true 2 2]);
  (2069, [S_ true 0 true 0 7; S_ true 0 true 1 2; S_ true 0 true 2 2]);
  (2071, [S_ true 0 true 0 6; S_ false 0 true 1 2; S_ false 0 true 2 3]);
  (2073, [S_ true 0 true 0 6; S_ false 0 true 1 2; S_ true 0 true 2 3]);
  (2075, [S_ true 0 true 0 6; S_ false 0 true 1 3; S_ false 0 true 2 2]);
  (2077, [S_ true 0 true 0 6; S_ false 0 true 1 3; S_ true 0 true 2 2]);
  (2079, [S_ true 0 true 0 6; S_ false 0 true 1 5]);
  (2081, [S_ true 0 true 0 6; S_ true 0 true 1 5]);
  (2083, [S_ true 0 true 0 6; S_ true 0 true 1 3; S_ false 0 true 2 2]);
  (2085, [S_ true 0 true 0 6; S_ true 0 true 1 3; S_ true 0 true 2 2]);
  (2087, [S_ true 0 true 0 6; S_ true 0 true 1 2; S_ false 0 true 2 3]);
  (2089, [S_ true 0 true 0 6; S_ true 0 true 1 2; S_ true 0 true 2 3]);
  (2091, [S_ true 0 true 0 4; S_ false 1 true 1 5; S_ false 1 true 2 2]);
  (2093, [S_ true 0 true 0 1; S_ true 1 true 0 7; S_ false 1 true 2 4]);
  (2095, [S_ true 0 true 0 5; S_ false 0 true 1 2; S_ false 0 true 2 4]);
  (2097, [S_ true 0 true 0 5; S_ false 0 true 1 2; S_ true 0 true 2 4]);
  (2099, [S_ true 0 true 0 1; S_ true 1 true 0 7; S_ true 1 true 2 4]);
  (2101, [S_ true 0 true 0 5; S_ false 0 true 1 2; S_ true 0 true 2 2; S_ true 0 true 3 2]);
  (2103, [S_ true 0 true 0 5; S_ false 0 true 1 3; S_ false 0 true 2 3]);
  (2105, [S_ true 0 true 0 5; S_ false 0 true 1 3; S_ true 0 true 2 3]);
  (2107, [S_ true 0 true 0 5; S_ false 0 true 1 4; S_ false 0 true 2 2]);
  (2109, [S_ true 0 true 0 5; S_ false 0 true 1 4; S_ true 0 true 2 2]);
  (2111, [S_ true 0 true 0 5; S_ false 0 true 1 6]);
  (2113, [S_ true 0 true 0 5; S_ true 0 true 1 6]);
  (2115, [S_ true 0 true 0 5; S_ true 0 true 1 4; S_ false 0 true 2 2]);
  (2117, [S_ true 0 true 0 5; S_ true 0 true 1 4; S_ true 0 true 2 2]);
  (2119, [S_ true 0 true 0 5; S_ true 0 true 1 3; S_ false 0 true 2 3]);
  (2121, [S_ true 0 true 0 5; S_ true 0 true 1 3; S_ true 0 true 2 3]);
  (2123, [S_ true 0 true 0 2; S_ true 1 true 0 7; S_ false 1 true 2 4]);
  (2125, [S_ true 0 true 0 4; S_ false 1 true 1 5; S_ true 1 true 2 2]);
  (2127, [S_ true 0 true 0 5; S_ true 0 true 1 2; S_ false 0 true 2 4]);
  (2129, [S_ true 0 true 0 5; S_ true 0 true 1 2; S_ true 0 true 2 4]);
  (2131, [S_ true 0 true 0 5; S_ true 0 true 1 2; S_ true 0 true 2 2; S_ false 0 true 3 2]);
  (2133, [S_ true 0 true 0 2; S_ true 1 true 0 7; S_ true 1 true 2 4]);
  (2135, [S_ true 0 true 0 4; S_ false 0 true 1 2; S_ false 0 true 2 2; S_ false 0 true 3 3]);
  (2137, [S_ true 0 true 0 5; S_ false 0 true 1 3; S_ true 1 true 2 3]);
  (2139, [S_ false 0 true 0 5; S_ true 1 true 1 4; S_ true 1 true 2 2]);
  (2141, [S_ true 0 true 0 4; S_ false 1 true 1 6; S_ false 0 true 2 1]);
  (2143, [S_ true 0 true 0 4; S_ false 0 true 1 2; S_ false 0 true 2 5]);
  (2145, [S_ true 0 true 0 5; S_ true 1 true 1 6]);
  (2147, [S_ true 0 true 0 1; S_ true 1 true 0 6; S_ true 1 true 2 5]);
  (2149, [S_ true 0 true 0 5; S_ true 0 true 1 4; S_ true 1 true 2 2]);
  (2151, [S_ true 0 true 0 3; S_ false 1 true 1 4; S_ false 1 true 2 4]);
  (2153, [S_ false 0 true 0 3; S_ true 1 true 0 7; S_ false 1 true 2 4]);
  (2155, [S_ true 0 true 0 4; S_ false 0 true 1 5; S_ false 1 true 2 2]);
  (2157, [S_ true 0 true 0 4; S_ false 0 true 1 6; S_ false 1 true 2 1]);
  (2159, [S_ true 0 true 0 4; S_ false 1 true 1 7]);
  (2161, [S_ true 0 true 0 4; S_ false 0 true 1 3; S_ true 0 true 2 4]);
  (2163, [S_ true 0 true 0 4; S_ true 0 true 1 5; S_ false 1 true 2 2]);
  (2165, [S_ true 0 true 0 4; S_ false 0 true 1 3; S_ true 0 true 2 2; S_ true 0 true 3 2]);
  (2167, [S_ true 0 true 0 4; S_ false 0 true 1 4; S_ false 0 true 2 3]);
  (2169, [S_ true 0 true 0 4; S_ false 0 true 1 4; S_ true 0 true 2 3]);
  (2171, [S_ true 0 true 0 4; S_ false 0 true 1 5; S_ false 0 true 2 2]);
  (2173, [S_ true 0 true 0 4; S_ false 0 true 1 5; S_ true 0 true 2 2]);
  (2175, [S_ true 0 true 0 4; S_ false 0 true 1 7]);
  (2177, [S_ true 0 true 0 4; S_ true 0 true 1 7]);
  (2179, [S_ true 0 true 0 4; S_ true 0 true 1 5; S_ false 0 true 2 2]);
  (2181, [S_ true 0 true 0 4; S_ true 0 true 1 5; S_ true 0 true 2 2]);
  (2183, [S_ true 0 true 0 4; S_ true 0 true 1 4; S_ false 0 true 2 3]);
  (2185, [S_ true 0 true 0 4; S_ true 0 true 1 4; S_ true 0 true 2 3]);
  (2187, [S_ true 0 true 0 4; S_ true 0 true 1 3; S_ false 0 true 2 2; S_ false 0 true 3 2]);
  (2189, [S_ true 0 true 0 4; S_ false 0 true 1 5; S_ true 1 true 2 2]);
  (2191, [S_ true 0 true 0 4; S_ true 0 true 1 3; S_ false 0 true 2 4]);
  (2193, [S_ true 0 true 0 4; S_ true 1 true 1 7]);
  (2195, [S_ true 0 true 0 4; S_ true 0 true 1 6; S_ true 1 true 2 1]);
  (2197, [S_ true 0 true 0 4; S_ true 0 true 1 5; S_ true 1 true 2 2]);
  (2199, [S_ true 0 true 0 4; S_ true 0 true 1 2; S_ false 0 true 2 2; S_ false 0 true 3 3]);
  (2201, [S_ true 0 true 0 3; S_ true 1 true 0 7; S_ true 1 true 2 4]);
  (2203, [S_ true 0 true 0 2; S_ true 1 true 0 6; S_ false 1 true 2 5]);
  (2205, [S_ false 0 true 0 6; S_ true 1 true 1 3; S_ false 1 true 2 2]);
  (2207, [S_ true 0 true 0 4; S_ true 0 true 1 2; S_ false 0 true 2 5]);
  (2209, [S_ true 0 true 0 4; S_ true 0 true 1 2; S_ true 0 true 2 5]);
  (2211, [S_ true 0 true 0 4; S_ true 1 true 1 6; S_ true 0 true 2 1]);
  (2213, [S_ true 0 true 0 2; S_ true 1 true 0 6; S_ true 1 true 2 5]);
  (2215, [S_ true 0 true 0 4; S_ true 0 true 1 2; S_ true 0 true 2 2; S_ false 0 true 3 3]);
  (2217, [S_ true 0 true 0 4; S_ true 0 true 1 2; S_ true 0 true 2 2; S_ true 0 true 3 3]);
  (2219, [S_ true 0 true 0 2; S_ true 1 true 0 6; S_ true 1 true 2 4; S_ true 0 true 3 1]);
  (2221, [S_ true 0 true 0 2; S_ false 1 true 1 3; S_ false 1 true 2 4; S_ true 0 true 3 2]);
  (2223, [S_ true 0 true 0 3; S_ false 1 true 1 5; S_ false 1 true 2 3]);
  (2225, [S_ true 0 true 0 4; S_ true 0 true 1 2; S_ true 1 true 2 5]);
  (2227, [S_ true 0 true 0 4; S_ true 1 true 1 5; S_ false 1 true 2 2]);
  (2229, [S_ true 0 true 0 3; S_ false 1 true 1 5; S_ false 0 true 2 1; S_ true 0 true 3 2]);
  (2231, [S_ true 0 true 0 3; S_ false 1 true 1 5; S_ false 0 true 2 3]);
  (2233, [S_ true 0 true 0 3; S_ false 1 true 1 5; S_ true 0 true 2 3]);
  (2235, [S_ true 0 true 0 2; S_ false 1 true 1 3; S_ false 1 true 2 6]);
  (2237, [S_ true 0 true 0 1; S_ true 1 true 0 5; S_ false 1 true 2 6]);
  (2239, [S_ true 0 true 0 3; S_ false 0 true 1 2; S_ false 0 true 2 6]);
  (2241, [S_ true 0 true 0 3; S_ false 0 true 1 2; S_ true 0 true 2 6]);
  (2243, [S_ true 0 true 0 4; S_ true 1 true 1 5; S_ false 0 true 2 2]);
  (2245, [S_ true 0 true 0 4; S_ true 1 true 1 5; S_ true 0 true 2 2]);
  (2247, [S_ false 0 true 0 3; S_ true 1 true 1 2; S_ true 1 true 2 6]);
  (2249, [S_ true 0 true 0 3; S_ false 0 true 1 2; S_ true 1 true 2 6]);
  (2251, [S_ true 0 true 0 1; S_ true 1 true 0 5; S_ true 1 true 2 4; S_ false 0 true 3 2]);
  (2253, [S_ true 0 true 0 1; S_ true 1 true 0 5; S_ true 1 true 2 4; S_ true 0 true 3 2]);
  (2255, [S_ true 0 true 0 3; S_ false 0 true 1 2; S_ true 0 true 2 2; S_ false 0 true 3 4]);
  (2257, [S_ true 0 true 0 4; S_ true 0 true 1 1; S_ true 1 true 2 6]);
  (2259, [S_ true 0 true 0 3; S_ false 1 true 1 6; S_ false 1 true 2 2]);
  (2261, [S_ true 0 true 0 4; S_ true 1 true 1 5; S_ true 1 true 2 2]);
  (2263, [S_ true 0 true 0 3; S_ false 0 true 1 3; S_ false 1 true 2 5]);
  (2265, [S_ false 0 true 0 3; S_ true 1 true 0 6; S_ false 1 true 2 5]);
  (2267, [S_ true 0 true 0 3; S_ false 1 true 1 6; S_ false 0 true 2 2]);
  (2269, [S_ true 0 true 0 3; S_ false 1 true 1 6; S_ true 0 true 2 2]);
  (2271, [S_ true 0 true 0 3; S_ false 0 true 1 3; S_ false 0 true 2 5]);
  (2273, [S_ true 0 true 0 3; S_ false 0 true 1 3; S_ true 0 true 2 5]);
  (2275, [S_ true 0 true 0 6; S_ true 1 true 1 3; S_ false 1 true 2 2]);
  (2277, [S_ true 0 true 0 3; S_ false 1 true 1 6; S_ true 1 true 2 2]);
  (2279, [S_ true 0 true 0 3; S_ false 0 true 1 4; S_ false 1 true 2 4]);
  (2281, [S_ true 0 true 0 3; S_ false 0 true 1 3; S_ true 1 true 2 5]);
  (2283, [S_ true 0 true 0 3; S_ false 0 true 1 4; S_ false 0 true 2 2; S_ false 0 true 3 2]);
  (2285, [S_ true 0 true 0 3; S_ false 1 true 1 7; S_ false 0 true 2 1]);
  (2287, [S_ true 0 true 0 3; S_ false 0 true 1 4; S_ false 0 true 2 4]);
  (2289, [S_ true 0 true 0 3; S_ false 0 true 1 4; S_ true 0 true 2 4]);
  (2291, [S_ true 0 true 0 3; S_ false 0 true 1 6; S_ false 1 true 2 2]);
  (2293, [S_ true 0 true 0 3; S_ false 0 true 1 7; S_ false 1 true 2 1]);
  (2295, [S_ true 0 true 0 3; S_ false 1 true 1 8]);
  (2297, [S_ true 0 true 0 3; S_ false 0 true 1 5; S_ true 0 true 2 3]);
  (2299, [S_ true 0 true 0 3; S_ false 0 true 1 6; S_ false 0 true 2 2]);
  (2301, [S_ true 0 true 0 3; S_ false 0 true 1 6; S_ true 0 true 2 2]);
  (2303, [S_ true 0 true 0 3; S_ false 0 true 1 8]);
  (2305, [S_ true 0 true 0 3; S_ true 0 true 1 8]);
  (2307, [S_ true 0 true 0 3; S_ true 0 true 1 6; S_ false 0 true 2 2]);
  (2309, [S_ true 0 true 0 3; S_ true 0 true 1 6; S_ true 0 true 2 2]);
  (2311, [S_ true 0 true 0 3; S_ true 0 true 1 5; S_ false 0 true 2 3]);
  (2313, [S_ true 0 true 0 3; S_ true 1 true 1 8]);
  (2315, [S_ true 0 true 0 3; S_ true 0 true 1 7; S_ true 1 true 2 1]);
  (2317, [S_ true 0 true 0 3; S_ true 0 true 1 6; S_ true 1 true 2 2]);
  (2319, [S_ true 0 true 0 3; S_ true 0 true 1 4; S_ false 0 true 2 4]);
  (2321, [S_ true 0 true 0 3; S_ true 0 true 1 4; S_ true 0 true 2 4]);
  (2323, [S_ true 0 true 0 3; S_ true 1 true 1 7; S_ true 0 true 2 1]);
  (2325, [S_ true 0 true 0 2; S_ false 1 true 1 4; S_ false 2 true 2 5]);
  (2327, [S_ true 0 true 0 3; S_ true 0 true 1 3; S_ false 1 true 2 5]);
  (2329, [S_ true 0 true 0 3; S_ true 0 true 1 4; S_ true 1 true 2 4]);
  (2331, [S_ true 0 true 0 3; S_ true 1 true 1 6; S_ false 1 true 2 2]);
  (2333, [S_ true 0 true 0 3; S_ true 0 true 1 3; S_ false 0 true 2 3; S_ true 0 true 3 2]);
  (2335, [S_ true 0 true 0 3; S_ true 0 true 1 3; S_ false 0 true 2 5]);
  (2337, [S_ true 0 true 0 3; S_ true 0 true 1 3; S_ true 0 true 2 5]);
  (2339, [S_ true 0 true 0 3; S_ true 1 true 1 6; S_ false 0 true 2 2]);
  (2341, [S_ true 0 true 0 3; S_ true 1 true 1 6; S_ true 0 true 2 2]);
  (2343, [S_ true 0 true 0 5; S_ true 1 true 1 3; S_ false 1 true 2 3]);
  (2345, [S_ true 0 true 0 3; S_ true 0 true 1 3; S_ true 1 true 2 5]);
  (2347, [S_ true 0 true 0 2; S_ true 1 true 0 5; S_ false 1 true 2 4; S_ false 0 true 3 2]);
  (2349, [S_ true 0 true 0 3; S_ true 1 true 1 6; S_ true 1 true 2 2]);
  (2351, [S_ true 0 true 0 3; S_ true 0 true 1 2; S_ false 0 true 2 2; S_ false 0 true 3 4]);
  (2353, [S_ true 0 true 0 3; S_ true 0 true 1 2; S_ false 0 true 2 2; S_ true 0 true 3 4]);
  (2355, [S_ true 0 true 0 3; S_ true 0 true 1 3; S_ true 1 true 2 4; S_ true 0 true 3 1]);
  (2357, [S_ true 0 true 0 2; S_ true 1 true 0 5; S_ false 1 true 2 5; S_ false 0 true 3 1]);
  (2359, [S_ true 0 true 0 3; S_ true 0 true 1 2; S_ false 1 true 2 6]);
  (2361, [S_ true 0 true 0 3; S_ true 0 true 1 2; S_ false 0 true 2 3; S_ true 0 true 3 3]);
  (2363, [S_ true 0 true 0 2; S_ true 1 true 0 5; S_ false 1 true 2 6]);
  (2365, [S_ true 0 true 0 3; S_ true 0 true 1 2; S_ false 0 true 2 4; S_ true 0 true 3 2]);
  (2367, [S_ true 0 true 0 3; S_ true 0 true 1 2; S_ false 0 true 2 6]);
  (2369, [S_ true 0 true 0 3; S_ true 0 true 1 2; S_ true 0 true 2 6]);
  (2371, [S_ true 0 true 0 3; S_ true 0 true 1 2; S_ true 0 true 2 4; S_ false 0 true 3 2]);
  (2373, [S_ true 0 true 0 2; S_ true 1 true 0 5; S_ true 1 true 2 6]);
  (2375, [S_ true 0 true 0 3; S_ true 1 true 1 5; S_ false 0 true 2 3]);
  (2377, [S_ true 0 true 0 3; S_ true 1 true 1 5; S_ true 0 true 2 3]);
  (2379, [S_ true 0 true 0 3; S_ true 1 true 1 5; S_ true 0 true 2 1; S_ false 0 true 3 2]);
  (2381, [S_ true 0 true 0 3; S_ true 1 true 1 5; S_ true 0 true 2 1; S_ true 0 true 3 2]);
  (2383, [S_ true 0 true 0 3; S_ true 0 true 1 2; S_ true 0 true 2 2; S_ false 0 true 3 4]);
  (2385, [S_ true 0 true 0 3; S_ true 1 true 1 5; S_ true 1 true 2 3]);
  (2387, [S_ true 0 true 0 2; S_ true 1 true 0 5; S_ true 1 true 2 4; S_ false 0 true 3 2]);
  (2389, [S_ true 0 true 0 2; S_ true 1 true 0 5; S_ true 1 true 2 4; S_ true 0 true 3 2]);
  (2391, [S_ true 0 true 0 2; S_ false 1 true 1 4; S_ false 0 true 2 2; S_ false 0 true 3 3]);
  (2393, [S_ true 0 true 0 2; S_ false 1 true 1 4; S_ false 0 true 2 2; S_ true 0 true 3 3]);
  (2395, [S_ true 0 true 0 2; S_ false 1 true 1 4; S_ false 1 true 2 5]);
  (2397, [S_ true 0 true 0 2; S_ false 1 true 1 4; S_ false 0 true 2 3; S_ true 0 true 3 2]);
  (2399, [S_ true 0 true 0 2; S_ false 1 true 1 4; S_ false 0 true 2 5]);
  (2401, [S_ true 0 true 0 2; S_ false 1 true 1 4; S_ true 0 true 2 5]);
  (2403, [S_ true 0 true 0 2; S_ false 1 true 1 4; S_ true 0 true 2 3; S_ false 0 true 3 2]);
  (2405, [S_ true 0 true 0 2; S_ false 1 true 1 4; S_ true 1 true 2 5]);
  (2407, [S_ true 0 true 0 2; S_ false 1 true 1 4; S_ true 0 true 2 2; S_ false 0 true 3 3]);
  (2409, [S_ true 0 true 0 5; S_ true 1 true 1 3; S_ true 1 true 2 3]);
  (2411, [S_ true 0 true 0 2; S_ false 0 true 1 2; S_ false 1 true 2 5; S_ false 0 true 3 2]);
  (2413, [S_ false 0 true 0 7; S_ true 1 true 1 2; S_ false 1 true 2 2]);
  (2415, [S_ true 0 true 0 4; S_ true 1 true 0 1; S_ false 1 true 2 7]);
  (2417, [S_ false 0 true 0 4; S_ true 1 true 0 2; S_ false 1 true 2 7]);
  (2419, [S_ true 0 true 0 1; S_ true 1 true 0 4; S_ false 1 true 2 5; S_ false 0 true 3 2]);
  (2421, [S_ true 0 true 0 1; S_ true 1 true 0 4; S_ false 1 true 2 5; S_ true 0 true 3 2]);
  (2423, [S_ true 0 true 0 3; S_ true 0 true 1 1; S_ false 1 true 2 7]);
  (2425, [S_ true 0 true 0 2; S_ false 0 true 1 2; S_ false 0 true 2 4; S_ true 0 true 3 3]);
  (2427, [S_ true 0 true 0 2; S_ false 0 true 1 2; S_ false 1 true 2 7]);
  (2429, [S_ true 0 true 0 1; S_ true 1 true 0 4; S_ false 1 true 2 7]);
  (2431, [S_ true 0 true 0 2; S_ false 0 true 1 2; S_ false 0 true 2 7]);
  (2433, [S_ true 0 true 0 2; S_ false 0 true 1 2; S_ true 0 true 2 7]);
  (2435, [S_ true 0 true 0 1; S_ true 1 true 0 4; S_ true 1 true 2 7]);
  (2437, [S_ true 0 true 0 2; S_ false 0 true 1 2; S_ true 1 true 2 7]);
  (2439, [S_ true 0 true 0 3; S_ true 1 true 1 4; S_ false 1 true 2 4]);
  (2441, [S_ true 0 true 0 3; S_ true 0 true 1 1; S_ true 1 true 2 7]);
  (2443, [S_ true 0 true 0 3; S_ true 1 true 1 4; S_ false 0 true 2 2; S_ false 0 true 3 2]);
  (2445, [S_ true 0 true 0 3; S_ true 1 true 1 4; S_ false 0 true 2 2; S_ true 0 true 3 2]);
  (2447, [S_ true 0 true 0 3; S_ true 1 true 1 4; S_ false 0 true 2 4]);
  (2449, [S_ true 0 true 0 3; S_ true 1 true 1 4; S_ true 0 true 2 4]);
  (2451, [S_ true 0 true 0 7; S_ true 1 true 1 2; S_ false 1 true 2 2]);
  (2453, [S_ true 0 true 0 3; S_ true 1 true 1 4; S_ true 0 true 2 2; S_ true 0 true 3 2]);
  (2455, [S_ true 0 true 0 3; S_ true 1 true 1 4; S_ true 0 true 2 1; S_ false 0 true 3 3]);
  (2457, [S_ true 0 true 0 3; S_ true 1 true 1 4; S_ true 1 true 2 4]);
  (2459, [S_ true 0 true 0 2; S_ false 1 true 1 5; S_ false 1 true 2 2; S_ false 0 true 3 2]);
  (2461, [S_ true 0 true 0 2; S_ false 1 true 1 5; S_ false 1 true 2 2; S_ true 0 true 3 2]);
  (2463, [S_ true 0 true 0 2; S_ false 0 true 1 2; S_ true 0 true 2 2; S_ false 0 true 3 5]);
  (2465, [S_ true 0 true 0 4; S_ true 1 true 1 3; S_ true 1 true 2 4]);
  (2467, [S_ true 0 true 0 3; S_ true 0 true 1 1; S_ true 1 true 2 5; S_ false 0 true 3 2]);
  (2469, [S_ true 0 true 0 2; S_ false 1 true 1 5; S_ false 1 true 2 3; S_ false 0 true 3 1]);
  (2471, [S_ true 0 true 0 2; S_ false 1 true 1 5; S_ false 0 true 2 1; S_ false 0 true 3 3]);
  (2473, [S_ true 0 true 0 2; S_ false 1 true 1 5; S_ false 0 true 2 1; S_ true 0 true 3 3]);
  (2475, [S_ true 0 true 0 2; S_ false 1 true 1 5; S_ false 1 true 2 4]);
  (2477, [S_ true 0 true 0 2; S_ false 1 true 1 5; S_ false 0 true 2 2; S_ true 0 true 3 2]);
  (2479, [S_ true 0 true 0 2; S_ false 1 true 1 5; S_ false 0 true 2 4]);
  (2481, [S_ true 0 true 0 2; S_ false 1 true 1 5; S_ true 0 true 2 4]);
  (2483, [S_ true 0 true 0 2; S_ false 1 true 1 5; S_ true 0 true 2 2; S_ false 0 true 3 2]);
  (2485, [S_ true 0 true 0 2; S_ false 1 true 1 5; S_ true 1 true 2 4]);
  (2487, [S_ true 0 true 0 2; S_ false 0 true 1 3; S_ false 0 true 2 3; S_ false 0 true 3 3]);
  (2489, [S_ false 0 true 0 3; S_ true 1 true 0 5; S_ false 1 true 2 6]);
  (2491, [S_ true 0 true 0 2; S_ false 0 true 1 3; S_ false 1 true 2 6]);
  (2493, [S_ true 0 true 0 2; S_ false 0 true 1 3; S_ false 0 true 2 4; S_ true 0 true 3 2]);
  (2495, [S_ true 0 true 0 2; S_ false 0 true 1 3; S_ false 0 true 2 6]);
  (2497, [S_ true 0 true 0 2; S_ false 0 true 1 3; S_ true 0 true 2 6]);
  (2499, [S_ true 0 true 0 2; S_ false 0 true 1 3; S_ true 0 true 2 4; S_ false 0 true 3 2]);
  (2501, [S_ true 0 true 0 2; S_ false 0 true 1 3; S_ true 1 true 2 6]);
  (2503, [S_ false 0 true 0 3; S_ true 1 true 0 5; S_ true 1 true 2 6]);
  (2505, [S_ true 0 true 0 2; S_ false 0 true 1 3; S_ true 0 true 2 3; S_ true 0 true 3 3]);
  (2507, [S_ true 0 true 0 2; S_ false 0 true 1 3; S_ true 1 true 2 5; S_ true 0 true 3 1]);
  (2509, [S_ true 0 true 0 2; S_ false 0 true 1 4; S_ false 1 true 2 3; S_ true 0 true 3 2]);
  (2511, [S_ false 0 true 0 5; S_ true 1 true 1 2; S_ true 1 true 2 4]);
  (2513, [S_ false 0 true 0 4; S_ true 1 true 0 6; S_ false 1 true 2 5]);
  (2515, [S_ true 0 true 0 2; S_ false 1 true 1 6; S_ false 1 true 2 3]);
  (2517, [S_ true 0 true 0 2; S_ false 1 true 1 6; S_ false 0 true 2 1; S_ true 0 true 3 2]);
  (2519, [S_ true 0 true 0 2; S_ false 1 true 1 6; S_ false 0 true 2 3]);
  (2521, [S_ true 0 true 0 2; S_ false 1 true 1 6; S_ true 0 true 2 3]);
  (2523, [S_ true 0 true 0 2; S_ false 0 true 1 4; S_ false 1 true 2 5]);
  (2525, [S_ true 0 true 0 2; S_ false 1 true 1 6; S_ true 1 true 2 3]);
  (2527, [S_ true 0 true 0 2; S_ false 0 true 1 4; S_ false 0 true 2 5]);
  (2529, [S_ true 0 true 0 2; S_ false 0 true 1 4; S_ true 0 true 2 5]);
  (2531, [S_ true 0 true 0 2; S_ false 0 true 1 4; S_ true 0 true 2 3; S_ false 0 true 3 2]);
  (2533, [S_ true 0 true 0 2; S_ false 0 true 1 4; S_ true 1 true 2 5]);
  (2535, [S_ true 0 true 0 2; S_ false 1 true 1 7; S_ false 1 true 2 2]);
  (2537, [S_ true 0 true 0 2; S_ false 0 true 1 4; S_ true 0 true 2 2; S_ true 0 true 3 3]);
  (2539, [S_ true 0 true 0 2; S_ false 1 true 1 7; S_ false 0 true 2 2]);
  (2541, [S_ true 0 true 0 2; S_ false 1 true 1 7; S_ true 0 true 2 2]);
  (2543, [S_ true 0 true 0 2; S_ false 0 true 1 5; S_ false 0 true 2 4]);
  (2545, [S_ true 0 true 0 2; S_ false 0 true 1 5; S_ true 0 true 2 4]);
  (2547, [S_ true 0 true 0 2; S_ false 0 true 1 6; S_ false 1 true 2 3]);
  (2549, [S_ true 0 true 0 2; S_ false 1 true 1 8; S_ false 0 true 2 1]);
  (2551, [S_ true 0 true 0 2; S_ false 0 true 1 6; S_ false 0 true 2 3]);
  (2553, [S_ true 0 true 0 2; S_ false 0 true 1 6; S_ true 0 true 2 3]);
  (2555, [S_ true 0 true 0 2; S_ false 1 true 1 9]);
  (2557, [S_ true 0 true 0 2; S_ false 0 true 1 7; S_ true 0 true 2 2]);
  (2559, [S_ true 0 true 0 2; S_ false 0 true 1 9])].

Definition asc_chunk_5 : asc_map := [
  (2561, [S_ true 0 true 0 2; S_ true 0 true 1 9]);
  (2563, [S_ true 0 true 0 2; S_ true 0 true 1 7; S_ false 0 true 2 2]);
  (2565, [S_ true 0 true 0 2; S_ true 1 true 1 9]);
  (2567, [S_ true 0 true 0 2; S_ true 0 true 1 6; S_ false 0 true 2 3]);
  (2569, [S_ true 0 true 0 2; S_ true 0 true 1 6; S_ true 0 true 2 3]);
  (2571, [S_ true 0 true 0 2; S_ true 1 true 1 8; S_ true 0 true 2 1]);
  (2573, [S_ true 0 true 0 2; S_ true 0 true 1 6; S_ true 1 true 2 3]);
  (2575, [S_ true 0 true 0 2; S_ true 0 true 1 5; S_ false 0 true 2 4]);
  (2577, [S_ true 0 true 0 2; S_ true 0 true 1 5; S_ true 0 true 2 4]);
  (2579, [S_ true 0 true 0 2; S_ true 1 true 1 7; S_ false 0 true 2 2]);
  (2581, [S_ true 0 true 0 2; S_ true 1 true 1 7; S_ true 0 true 2 2]);
  (2583, [S_ true 0 true 0 3; S_ true 1 true 1 3; S_ false 1 true 2 5]);
  (2585, [S_ true 0 true 0 2; S_ true 1 true 1 7; S_ true 1 true 2 2]);
  (2587, [S_ true 0 true 0 2; S_ true 0 true 1 4; S_ false 1 true 2 5]);
  (2589, [S_ true 0 true 0 2; S_ true 0 true 1 4; S_ false 0 true 2 3; S_ true 0 true 3 2]);
  (2591, [S_ true 0 true 0 2; S_ true 0 true 1 4; S_ false 0 true 2 5]);
  (2593, [S_ true 0 true 0 2; S_ true 0 true 1 4; S_ true 0 true 2 5]);
  (2595, [S_ true 0 true 0 2; S_ true 1 true 1 6; S_ false 1 true 2 3]);
  (2597, [S_ true 0 true 0 2; S_ true 0 true 1 4; S_ true 1 true 2 5]);
  (2599, [S_ true 0 true 0 2; S_ true 1 true 1 6; S_ false 0 true 2 3]);
  (2601, [S_ true 0 true 0 2; S_ true 1 true 1 6; S_ true 0 true 2 3]);
  (2603, [S_ true 0 true 0 2; S_ true 1 true 1 6; S_ true 0 true 2 1; S_ false 0 true 3 2]);
  (2605, [S_ true 0 true 0 2; S_ true 1 true 1 6; S_ true 1 true 2 3]);
  (2607, [S_ true 0 true 0 5; S_ true 1 true 1 2; S_ false 1 true 2 4]);
  (2609, [S_ true 0 true 0 4; S_ true 1 true 0 6; S_ true 1 true 2 5]);
  (2611, [S_ true 0 true 0 2; S_ true 0 true 1 4; S_ true 1 true 2 3; S_ false 0 true 3 2]);
  (2613, [S_ true 0 true 0 2; S_ true 0 true 1 3; S_ false 1 true 2 5; S_ false 0 true 3 1]);
  (2615, [S_ true 0 true 0 3; S_ true 1 true 0 5; S_ false 1 true 2 6]);
  (2617, [S_ true 0 true 0 2; S_ true 0 true 1 3; S_ false 0 true 2 3; S_ true 0 true 3 3]);
  (2619, [S_ true 0 true 0 2; S_ true 0 true 1 3; S_ false 1 true 2 6]);
  (2621, [S_ true 0 true 0 2; S_ true 0 true 1 3; S_ false 0 true 2 4; S_ true 0 true 3 2]);
  (2623, [S_ true 0 true 0 2; S_ true 0 true 1 3; S_ false 0 true 2 6]);
  (2625, [S_ true 0 true 0 2; S_ true 0 true 1 3; S_ true 0 true 2 6]);
  (2627, [S_ true 0 true 0 2; S_ true 0 true 1 3; S_ true 0 true 2 4; S_ false 0 true 3 2]);
  (2629, [S_ true 0 true 0 2; S_ true 0 true 1 3; S_ true 1 true 2 6]);
  (2631, [S_ true 0 true 0 2; S_ true 0 true 1 3; S_ true 0 true 2 3; S_ false 0 true 3 3]);
  (2633, [S_ true 0 true 0 3; S_ true 1 true 0 5; S_ true 1 true 2 6]);
  (2635, [S_ true 0 true 0 2; S_ true 1 true 1 5; S_ false 1 true 2 4]);
  (2637, [S_ true 0 true 0 2; S_ true 1 true 1 5; S_ false 0 true 2 2; S_ true 0 true 3 2]);
  (2639, [S_ true 0 true 0 2; S_ true 1 true 1 5; S_ false 0 true 2 4]);
  (2641, [S_ true 0 true 0 2; S_ true 1 true 1 5; S_ true 0 true 2 4]);
  (2643, [S_ true 0 true 0 2; S_ true 1 true 1 5; S_ true 0 true 2 2; S_ false 0 true 3 2]);
  (2645, [S_ true 0 true 0 2; S_ true 1 true 1 5; S_ true 1 true 2 4]);
  (2647, [S_ true 0 true 0 2; S_ true 1 true 1 5; S_ true 0 true 2 1; S_ false 0 true 3 3]);
  (2649, [S_ true 0 true 0 2; S_ true 1 true 1 5; S_ true 0 true 2 1; S_ true 0 true 3 3]);
  (2651, [S_ true 0 true 0 2; S_ true 1 true 1 5; S_ true 1 true 2 3; S_ true 0 true 3 1]);
  (2653, [S_ true 0 true 0 4; S_ true 1 true 0 2; S_ false 1 true 2 6; S_ false 0 true 3 1]);
  (2655, [S_ true 0 true 0 2; S_ true 0 true 1 2; S_ false 0 true 2 2; S_ false 0 true 3 5]);
  (2657, [S_ true 0 true 0 5; S_ true 1 true 0 3; S_ true 1 true 2 6]);
  (2659, [S_ true 0 true 0 2; S_ true 1 true 1 5; S_ true 1 true 2 2; S_ false 0 true 3 2]);
  (2661, [S_ true 0 true 0 2; S_ true 1 true 1 5; S_ true 1 true 2 2; S_ true 0 true 3 2]);
  (2663, [S_ true 0 true 0 1; S_ false 1 true 1 3; S_ false 1 true 2 4; S_ false 0 true 3 3]);
  (2665, [S_ true 0 true 0 6; S_ true 1 true 1 2; S_ true 1 true 2 3]);
  (2667, [S_ false 0 true 0 7; S_ true 1 true 1 2; S_ true 1 true 2 2]);
  (2669, [S_ true 0 true 0 2; S_ true 0 true 1 2; S_ false 1 true 2 5; S_ true 0 true 3 2]);
  (2671, [S_ true 0 true 0 4; S_ true 1 true 0 2; S_ false 1 true 2 7]);
  (2673, [S_ true 0 true 0 5; S_ true 1 true 1 2; S_ true 1 true 2 4]);
  (2675, [S_ true 0 true 0 1; S_ false 1 true 1 3; S_ false 1 true 2 5; S_ false 0 true 3 2]);
  (2677, [S_ true 0 true 0 1; S_ false 1 true 1 3; S_ false 1 true 2 5; S_ true 0 true 3 2]);
  (2679, [S_ true 0 true 0 2; S_ true 0 true 1 2; S_ false 0 true 2 4; S_ false 0 true 3 3]);
  (2681, [S_ false 0 true 0 3; S_ true 1 true 1 1; S_ false 1 true 2 7]);
  (2683, [S_ true 0 true 0 2; S_ true 0 true 1 2; S_ false 1 true 2 7]);
  (2685, [S_ true 0 true 0 1; S_ false 1 true 1 3; S_ false 1 true 2 7]);
  (2687, [S_ true 0 true 0 2; S_ true 0 true 1 2; S_ false 0 true 2 7]);
  (2689, [S_ true 0 true 0 2; S_ true 0 true 1 2; S_ true 0 true 2 7]);
  (2691, [S_ true 0 true 0 1; S_ false 1 true 1 3; S_ true 1 true 2 7]);
  (2693, [S_ true 0 true 0 2; S_ true 0 true 1 2; S_ true 1 true 2 7]);
  (2695, [S_ false 0 true 0 3; S_ true 1 true 1 1; S_ true 1 true 2 7]);
  (2697, [S_ true 0 true 0 2; S_ true 0 true 1 2; S_ true 0 true 2 4; S_ true 0 true 3 3]);
  (2699, [S_ true 0 true 0 1; S_ false 1 true 1 3; S_ true 1 true 2 5; S_ false 0 true 3 2]);
  (2701, [S_ true 0 true 0 1; S_ false 1 true 1 3; S_ true 1 true 2 5; S_ true 0 true 3 2]);
  (2703, [S_ true 0 true 0 4; S_ true 1 true 1 2; S_ false 1 true 2 5]);
  (2705, [S_ true 0 true 0 4; S_ true 1 true 0 2; S_ true 1 true 2 7]);
  (2707, [S_ true 0 true 0 2; S_ true 0 true 1 2; S_ true 1 true 2 5; S_ false 0 true 3 2]);
  (2709, [S_ true 0 true 0 7; S_ true 1 true 1 2; S_ true 1 true 2 2]);
  (2711, [S_ true 0 true 0 2; S_ true 1 true 1 4; S_ false 0 true 2 2; S_ false 0 true 3 3]);
  (2713, [S_ true 0 true 0 2; S_ true 1 true 1 4; S_ false 0 true 2 2; S_ true 0 true 3 3]);
  (2715, [S_ true 0 true 0 2; S_ true 1 true 1 4; S_ false 1 true 2 5]);
  (2717, [S_ true 0 true 0 2; S_ true 1 true 1 4; S_ false 0 true 2 3; S_ true 0 true 3 2]);
  (2719, [S_ true 0 true 0 2; S_ true 1 true 1 4; S_ false 0 true 2 5]);
  (2721, [S_ true 0 true 0 2; S_ true 1 true 1 4; S_ true 0 true 2 5]);
  (2723, [S_ true 0 true 0 2; S_ true 1 true 1 4; S_ true 0 true 2 3; S_ false 0 true 3 2]);
  (2725, [S_ true 0 true 0 2; S_ true 1 true 1 4; S_ true 1 true 2 5]);
  (2727, [S_ true 0 true 0 2; S_ true 1 true 1 4; S_ true 0 true 2 2; S_ false 0 true 3 3]);
  (2729, [S_ true 0 true 0 2; S_ true 1 true 1 4; S_ true 0 true 2 2; S_ true 0 true 3 3]);
  (2731, [S_ true 0 true 0 2; S_ true 1 true 1 4; S_ true 1 true 2 4; S_ true 0 true 3 1]);
  (2733, [S_ true 0 true 0 1; S_ false 1 true 1 3; S_ true 1 true 2 3; S_ false 1 true 3 4]);
  (2735, [S_ true 0 true 0 2; S_ true 1 true 1 4; S_ true 0 true 2 1; S_ false 0 true 3 4]);
  (2737, [S_ true 0 true 0 4; S_ true 1 true 1 2; S_ true 1 true 2 5]);
  (2739, [S_ true 0 true 0 2; S_ true 1 true 1 4; S_ true 1 true 2 3; S_ false 0 true 3 2]);
  (2741, [S_ true 0 true 0 2; S_ true 1 true 1 4; S_ true 1 true 2 3; S_ true 0 true 3 2]);
  (2743, [S_ true 0 true 0 3; S_ true 1 true 0 1; S_ false 1 true 2 5; S_ false 0 true 3 3]);
  (2745, [S_ true 0 true 0 3; S_ true 1 true 0 1; S_ false 1 true 2 5; S_ true 0 true 3 3]);
  (2747, [S_ true 0 true 0 1; S_ true 0 true 1 4; S_ false 2 true 2 3; S_ true 1 true 3 3]);
  (2749, [S_ true 0 true 0 1; S_ false 0 true 1 2; S_ false 0 true 2 2; S_ false 1 true 3 6]);
  (2751, [S_ true 0 true 0 1; S_ false 0 true 1 2; S_ false 0 true 2 2; S_ false 0 true 3 6]);
  (2753, [S_ true 0 true 0 1; S_ false 0 true 1 2; S_ false 0 true 2 2; S_ true 0 true 3 6]);
  (2755, [S_ true 0 true 0 4; S_ true 1 true 0 2; S_ true 1 true 2 5; S_ false 0 true 3 2]);
  (2757, [S_ true 0 true 0 4; S_ true 1 true 0 2; S_ true 1 true 2 5; S_ true 0 true 3 2]);
  (2759, [S_ true 0 true 0 2; S_ true 1 true 1 4; S_ true 1 true 2 2; S_ false 0 true 3 3]);
  (2761, [S_ true 0 true 0 2; S_ true 1 true 1 4; S_ true 1 true 2 2; S_ true 0 true 3 3]);
  (2763, [S_ true 0 true 0 1; S_ false 0 true 1 3; S_ false 2 true 2 4; S_ true 1 true 3 3]);
  (2765, [S_ true 0 true 0 1; S_ false 0 true 1 2; S_ false 1 true 2 4; S_ false 1 true 3 4]);
  (2767, [S_ true 0 true 0 1; S_ false 0 true 1 2; S_ false 1 true 2 4; S_ false 0 true 3 4]);
  (2769, [S_ true 0 true 0 1; S_ false 0 true 1 2; S_ false 1 true 2 4; S_ true 0 true 3 4]);
  (2771, [S_ true 0 true 0 5; S_ true 1 true 1 2; S_ true 1 true 2 2; S_ false 0 true 3 2]);
  (2773, [S_ true 0 true 0 5; S_ true 1 true 1 2; S_ true 1 true 2 2; S_ true 0 true 3 2]);
  (2775, [S_ true 0 true 0 2; S_ true 0 true 1 1; S_ false 1 true 2 5; S_ false 0 true 3 3]);
  (2777, [S_ true 0 true 0 2; S_ true 0 true 1 1; S_ false 1 true 2 5; S_ true 0 true 3 3]);
  (2779, [S_ true 0 true 0 3; S_ true 1 true 0 1; S_ false 1 true 2 6; S_ false 0 true 3 2]);
  (2781, [S_ true 0 true 0 3; S_ true 1 true 0 1; S_ false 1 true 2 6; S_ true 0 true 3 2]);
  (2783, [S_ true 0 true 0 1; S_ false 0 true 1 2; S_ false 0 true 2 3; S_ false 0 true 3 5]);
  (2785, [S_ true 0 true 0 1; S_ false 0 true 1 2; S_ false 0 true 2 3; S_ true 0 true 3 5]);
  (2787, [S_ false 0 true 0 3; S_ true 1 true 0 2; S_ false 1 true 2 6; S_ false 0 true 3 2]);
  (2789, [S_ false 0 true 0 3; S_ true 1 true 0 2; S_ false 1 true 2 6; S_ true 0 true 3 2]);
  (2791, [S_ true 0 true 0 1; S_ false 0 true 1 2; S_ false 1 true 2 5; S_ false 0 true 3 3]);
  (2793, [S_ true 0 true 0 1; S_ false 0 true 1 2; S_ false 1 true 2 5; S_ true 0 true 3 3]);
  (2795, [S_ true 0 true 0 2; S_ true 0 true 1 1; S_ false 1 true 2 6; S_ false 0 true 3 2]);
  (2797, [S_ true 0 true 0 2; S_ true 0 true 1 1; S_ false 1 true 2 6; S_ true 0 true 3 2]);
  (2799, [S_ true 0 true 0 1; S_ false 0 true 1 2; S_ false 0 true 2 4; S_ false 0 true 3 4]);
  (2801, [S_ false 0 true 0 4; S_ true 1 false 0 2; S_ false 1 true 2 8]);
  (2803, [S_ true 0 true 0 1; S_ false 0 true 1 2; S_ false 1 true 2 6; S_ false 0 true 3 2]);
  (2805, [S_ false 0 true 0 8; S_ true 1 true 1 1; S_ false 1 true 2 2]);
  (2807, [S_ true 0 true 0 3; S_ true 1 true 0 1; S_ false 1 true 2 8]);
  (2809, [S_ false 0 true 0 3; S_ true 1 true 0 2; S_ false 1 true 2 8]);
  (2811, [S_ true 0 true 0 2; S_ true 0 true 1 1; S_ false 1 true 2 8]);
  (2813, [S_ true 0 true 0 1; S_ false 0 true 1 2; S_ false 1 true 2 8]);
  (2815, [S_ true 0 true 0 1; S_ false 0 true 1 2; S_ false 0 true 2 8]);
  (2817, [S_ true 0 true 0 1; S_ false 0 true 1 2; S_ true 0 true 2 8]);
  (2819, [S_ true 0 true 0 1; S_ false 0 true 1 2; S_ true 1 true 2 8]);
  (2821, [S_ true 0 true 0 2; S_ true 0 true 1 1; S_ true 1 true 2 8]);
  (2823, [S_ false 0 true 0 3; S_ true 1 true 0 2; S_ true 1 true 2 8]);
  (2825, [S_ true 0 true 0 3; S_ true 1 true 0 1; S_ true 1 true 2 8]);
  (2827, [S_ true 0 true 0 8; S_ true 1 true 1 1; S_ false 1 true 2 2]);
  (2829, [S_ true 0 true 0 1; S_ false 0 true 1 2; S_ true 1 true 2 6; S_ true 0 true 3 2]);
  (2831, [S_ false 0 true 0 4; S_ true 1 false 0 2; S_ true 1 true 2 8]);
  (2833, [S_ true 0 true 0 1; S_ false 0 true 1 2; S_ true 0 true 2 4; S_ true 0 true 3 4]);
  (2835, [S_ true 0 true 0 1; S_ false 1 true 1 4; S_ false 2 true 2 6]);
  (2837, [S_ true 0 true 0 2; S_ true 0 true 1 1; S_ true 1 true 2 6; S_ true 0 true 3 2]);
  (2839, [S_ true 0 true 0 1; S_ false 0 true 1 2; S_ true 1 true 2 5; S_ false 0 true 3 3]);
  (2841, [S_ true 0 true 0 1; S_ false 0 true 1 2; S_ true 1 true 2 5; S_ true 0 true 3 3]);
  (2843, [S_ true 0 true 0 3; S_ true 1 true 1 2; S_ false 1 true 2 4; S_ false 0 true 3 2]);
  (2845, [S_ true 0 true 0 3; S_ true 1 true 1 2; S_ false 1 true 2 4; S_ true 0 true 3 2]);
  (2847, [S_ true 0 true 0 1; S_ false 0 true 1 2; S_ true 0 true 2 3; S_ false 0 true 3 5]);
  (2849, [S_ true 0 true 0 1; S_ false 0 true 1 2; S_ true 0 true 2 3; S_ true 0 true 3 5]);
  (2851, [S_ true 0 true 0 3; S_ true 1 true 0 1; S_ true 1 true 2 6; S_ false 0 true 3 2]);
  (2853, [S_ true 0 true 0 3; S_ true 1 true 0 1; S_ true 1 true 2 6; S_ true 0 true 3 2]);
  (2855, [S_ true 0 true 0 1; S_ false 1 true 1 4; S_ false 1 true 2 3; S_ false 0 true 3 3]);
  (2857, [S_ true 0 true 0 1; S_ false 1 true 1 4; S_ false 1 true 2 3; S_ true 0 true 3 3]);
  (2859, [S_ true 0 true 0 2; S_ true 1 true 1 3; S_ false 1 true 2 4; S_ false 0 true 3 2]);
  (2861, [S_ true 0 true 0 2; S_ true 1 true 1 3; S_ false 1 true 2 4; S_ true 0 true 3 2]);
  (2863, [S_ true 0 true 0 1; S_ false 1 true 1 4; S_ false 0 true 2 2; S_ false 0 true 3 4]);
  (2865, [S_ false 0 true 0 4; S_ true 1 true 1 1; S_ false 1 true 2 6]);
  (2867, [S_ true 0 true 0 1; S_ false 1 true 1 4; S_ false 1 true 2 4; S_ false 0 true 3 2]);
  (2869, [S_ true 0 true 0 1; S_ false 1 true 1 4; S_ false 1 true 2 4; S_ true 0 true 3 2]);
  (2871, [S_ true 0 true 0 3; S_ true 1 true 1 2; S_ false 1 true 2 6]);
  (2873, [S_ true 0 true 0 1; S_ false 1 true 1 4; S_ false 0 true 2 3; S_ true 0 true 3 3]);
  (2875, [S_ true 0 true 0 2; S_ true 1 true 1 3; S_ false 1 true 2 6]);
  (2877, [S_ true 0 true 0 1; S_ false 1 true 1 4; S_ false 1 true 2 6]);
  (2879, [S_ true 0 true 0 1; S_ false 1 true 1 4; S_ false 0 true 2 6]);
  (2881, [S_ true 0 true 0 1; S_ false 1 true 1 4; S_ true 0 true 2 6]);
  (2883, [S_ true 0 true 0 1; S_ false 1 true 1 4; S_ true 1 true 2 6]);
  (2885, [S_ true 0 true 0 2; S_ true 1 true 1 3; S_ true 1 true 2 6]);
  (2887, [S_ true 0 true 0 1; S_ false 1 true 1 4; S_ true 0 true 2 3; S_ false 0 true 3 3]);
  (2889, [S_ true 0 true 0 3; S_ true 1 true 1 2; S_ true 1 true 2 6]);
  (2891, [S_ true 0 true 0 1; S_ false 1 true 1 4; S_ true 1 true 2 4; S_ false 0 true 3 2]);
  (2893, [S_ true 0 true 0 1; S_ false 1 true 1 4; S_ true 1 true 2 4; S_ true 0 true 3 2]);
  (2895, [S_ false 0 true 0 4; S_ true 1 true 1 1; S_ true 1 true 2 6]);
  (2897, [S_ true 0 true 0 1; S_ false 1 true 1 4; S_ true 0 true 2 2; S_ true 0 true 3 4]);
  (2899, [S_ true 0 true 0 2; S_ true 1 true 1 3; S_ true 1 true 2 4; S_ false 0 true 3 2]);
  (2901, [S_ true 0 true 0 2; S_ true 1 true 1 3; S_ true 1 true 2 4; S_ true 0 true 3 2]);
  (2903, [S_ true 0 true 0 1; S_ false 1 true 1 4; S_ true 1 true 2 3; S_ false 0 true 3 3]);
  (2905, [S_ true 0 true 0 1; S_ false 1 true 1 4; S_ true 1 true 2 3; S_ true 0 true 3 3]);
  (2907, [S_ true 0 true 0 3; S_ false 1 true 0 5; S_ false 1 true 2 5; S_ false 0 true 3 2]);
  (2909, [S_ true 0 true 0 3; S_ false 1 true 0 5; S_ false 1 true 2 5; S_ true 0 true 3 2]);
  (2911, [S_ true 0 true 0 1; S_ false 0 true 1 3; S_ false 0 true 2 2; S_ false 0 true 3 5]);
  (2913, [S_ false 0 true 0 5; S_ true 1 false 0 3; S_ false 1 true 2 7]);
  (2915, [S_ true 0 true 0 3; S_ true 1 true 1 2; S_ true 1 true 2 4; S_ false 0 true 3 2]);
  (2917, [S_ true 0 true 0 3; S_ true 1 true 1 2; S_ true 1 true 2 4; S_ true 0 true 3 2]);
  (2919, [S_ true 0 true 0 1; S_ false 0 true 1 3; S_ false 1 true 2 4; S_ false 0 true 3 3]);
  (2921, [S_ false 0 true 0 7; S_ true 1 true 1 1; S_ false 1 true 2 3]);
  (2923, [S_ true 0 true 0 1; S_ false 0 true 1 3; S_ false 1 true 2 4; S_ true 1 true 3 3]);
  (2925, [S_ true 0 true 0 1; S_ false 1 true 1 4; S_ true 2 true 2 6]);
  (2927, [S_ true 0 true 0 1; S_ false 0 true 1 3; S_ false 0 true 2 3; S_ false 0 true 3 4]);
  (2929, [S_ false 0 true 0 4; S_ true 1 true 0 3; S_ false 1 true 2 7]);
  (2931, [S_ true 0 true 0 1; S_ false 0 true 1 3; S_ false 1 true 2 5; S_ false 0 true 3 2]);
  (2933, [S_ true 0 true 0 1; S_ false 0 true 1 3; S_ false 1 true 2 5; S_ true 0 true 3 2]);
  (2935, [S_ true 0 true 0 3; S_ false 1 true 0 5; S_ false 1 true 2 7]);
  (2937, [S_ false 0 true 0 3; S_ true 1 true 0 4; S_ false 1 true 2 7]);
  (2939, [S_ true 0 true 0 1; S_ false 0 true 1 3; S_ false 0 true 2 5; S_ false 0 true 3 2]);
  (2941, [S_ true 0 true 0 1; S_ false 0 true 1 3; S_ false 1 true 2 7]);
  (2943, [S_ true 0 true 0 1; S_ false 0 true 1 3; S_ false 0 true 2 7]);
  (2945, [S_ true 0 true 0 1; S_ false 0 true 1 3; S_ true 0 true 2 7]);
  (2947, [S_ true 0 true 0 1; S_ false 0 true 1 3; S_ true 1 true 2 7]);
  (2949, [S_ true 0 true 0 1; S_ false 0 true 1 3; S_ true 0 true 2 5; S_ true 0 true 3 2]);
  (2951, [S_ false 0 true 0 3; S_ true 1 true 0 4; S_ true 1 true 2 7]);
  (2953, [S_ true 0 true 0 3; S_ false 1 true 0 5; S_ true 1 true 2 7]);
  (2955, [S_ true 0 true 0 1; S_ false 0 true 1 3; S_ true 1 true 2 5; S_ false 0 true 3 2]);
  (2957, [S_ true 0 true 0 1; S_ false 0 true 1 3; S_ true 1 true 2 5; S_ true 0 true 3 2]);
  (2959, [S_ false 0 true 0 4; S_ true 1 true 0 3; S_ true 1 true 2 7]);
  (2961, [S_ false 0 true 0 6; S_ true 1 true 1 1; S_ false 1 true 2 4]);
  (2963, [S_ true 0 true 0 1; S_ false 1 true 1 5; S_ false 1 true 2 3; S_ false 0 true 3 2]);
  (2965, [S_ true 0 true 0 1; S_ false 1 true 1 5; S_ false 1 true 2 3; S_ true 0 true 3 2]);
  (2967, [S_ true 0 true 0 7; S_ true 1 true 1 1; S_ false 1 true 2 3]);
  (2969, [S_ true 0 true 0 1; S_ false 1 true 1 5; S_ false 0 true 2 2; S_ true 0 true 3 3]);
  (2971, [S_ true 0 true 0 1; S_ false 1 true 1 5; S_ false 0 true 2 3; S_ false 0 true 3 2]);
  (2973, [S_ true 0 true 0 1; S_ false 1 true 1 5; S_ false 1 true 2 5]);
  (2975, [S_ true 0 true 0 1; S_ false 1 true 1 5; S_ false 0 true 2 5]);
  (2977, [S_ true 0 true 0 1; S_ false 1 true 1 5; S_ true 0 true 2 5]);
  (2979, [S_ true 0 true 0 1; S_ false 1 true 1 5; S_ true 1 true 2 5]);
  (2981, [S_ true 0 true 0 1; S_ false 1 true 1 5; S_ true 0 true 2 3; S_ true 0 true 3 2]);
  (2983, [S_ true 0 true 0 1; S_ false 1 true 1 5; S_ true 0 true 2 2; S_ false 0 true 3 3]);
  (2985, [S_ true 0 true 0 1; S_ false 1 true 1 5; S_ true 0 true 2 2; S_ true 0 true 3 3]);
  (2987, [S_ true 0 true 0 1; S_ false 1 true 1 5; S_ true 1 true 2 3; S_ false 0 true 3 2]);
  (2989, [S_ true 0 true 0 1; S_ false 1 true 1 5; S_ true 1 true 2 3; S_ true 0 true 3 2]);
  (2991, [S_ true 0 true 0 4; S_ false 1 true 0 6; S_ false 1 true 2 6]);
  (2993, [S_ false 0 true 0 4; S_ true 1 true 0 5; S_ false 1 true 2 6]);
  (2995, [S_ true 0 true 0 1; S_ false 0 true 1 4; S_ false 1 true 2 4; S_ false 0 true 3 2]);
  (2997, [S_ true 0 true 0 1; S_ false 0 true 1 4; S_ false 1 true 2 4; S_ true 0 true 3 2]);
  (2999, [S_ true 0 true 0 1; S_ false 0 true 1 4; S_ false 0 true 2 3; S_ false 0 true 3 3]);
  (3001, [S_ true 0 true 0 1; S_ false 0 true 1 4; S_ false 0 true 2 3; S_ true 0 true 3 3]);
  (3003, [S_ true 0 true 0 1; S_ false 0 true 1 4; S_ false 0 true 2 4; S_ false 0 true 3 2]);
  (3005, [S_ true 0 true 0 1; S_ false 0 true 1 4; S_ false 1 true 2 6]);
  (3007, [S_ true 0 true 0 1; S_ false 0 true 1 4; S_ false 0 true 2 6]);
  (3009, [S_ true 0 true 0 1; S_ false 0 true 1 4; S_ true 0 true 2 6]);
  (3011, [S_ true 0 true 0 1; S_ false 0 true 1 4; S_ true 1 true 2 6]);
  (3013, [S_ true 0 true 0 1; S_ false 0 true 1 4; S_ true 0 true 2 4; S_ true 0 true 3 2]);
  (3015, [S_ true 0 true 0 1; S_ false 0 true 1 4; S_ true 0 true 2 3; S_ false 0 true 3 3]);
  (3017, [S_ true 0 true 0 1; S_ false 0 true 1 4; S_ true 0 true 2 3; S_ true 0 true 3 3]);
  (3019, [S_ true 0 true 0 1; S_ false 1 true 1 6; S_ false 0 true 2 2; S_ false 0 true 3 2]);
  (3021, [S_ true 0 true 0 1; S_ false 1 true 1 6; S_ false 1 true 2 4]);
  (3023, [S_ true 0 true 0 1; S_ false 1 true 1 6; S_ false 0 true 2 4]);
  (3025, [S_ true 0 true 0 1; S_ false 1 true 1 6; S_ true 0 true 2 4]);
  (3027, [S_ true 0 true 0 1; S_ false 1 true 1 6; S_ true 1 true 2 4]);
  (3029, [S_ true 0 true 0 1; S_ false 1 true 1 6; S_ true 0 true 2 2; S_ true 0 true 3 2]);
  (3031, [S_ true 0 true 0 1; S_ false 0 true 1 5; S_ false 0 true 2 2; S_ false 0 true 3 3]);
  (3033, [S_ true 0 true 0 1; S_ false 0 true 1 5; S_ false 0 true 2 2; S_ true 0 true 3 3]);
  (3035, [S_ true 0 true 0 1; S_ false 0 true 1 5; S_ false 0 true 2 3; S_ false 0 true 3 2]);
  (3037, [S_ true 0 true 0 1; S_ false 0 true 1 5; S_ false 1 true 2 5]);
  (3039, [S_ true 0 true 0 1; S_ false 0 true 1 5; S_ false 0 true 2 5]);
  (3041, [S_ true 0 true 0 1; S_ false 0 true 1 5; S_ true 0 true 2 5]);
  (3043, [S_ true 0 true 0 1; S_ false 0 true 1 5; S_ true 1 true 2 5]);
  (3045, [S_ true 0 true 0 1; S_ false 1 true 1 7; S_ false 1 true 2 3]);
  (3047, [S_ true 0 true 0 1; S_ false 1 true 1 7; S_ false 0 true 2 3]);
  (3049, [S_ true 0 true 0 1; S_ false 1 true 1 7; S_ true 0 true 2 3]);
  (3051, [S_ true 0 true 0 1; S_ false 1 true 1 7; S_ true 1 true 2 3]);
  (3053, [S_ true 0 true 0 1; S_ false 0 true 1 6; S_ false 1 true 2 4]);
  (3055, [S_ true 0 true 0 1; S_ false 0 true 1 6; S_ false 0 true 2 4]);
  (3057, [S_ true 0 true 0 1; S_ false 0 true 1 6; S_ true 0 true 2 4]);
  (3059, [S_ true 0 true 0 1; S_ false 1 true 1 8; S_ false 0 true 2 2]);
  (3061, [S_ true 0 true 0 1; S_ false 1 true 1 8; S_ true 0 true 2 2]);
  (3063, [S_ true 0 true 0 1; S_ false 0 true 1 7; S_ false 0 true 2 3]);
  (3065, [S_ true 0 true 0 1; S_ false 0 true 1 7; S_ true 0 true 2 3]);
  (3067, [S_ true 0 true 0 1; S_ false 0 true 1 8; S_ false 0 true 2 2]);
  (3069, [S_ true 0 true 0 1; S_ false 1 true 1 10]);
  (3071, [S_ true 0 true 0 1; S_ false 0 true 1 10])].

Definition asc_chunk_6 : asc_map := [
  (3073, [S_ true 0 true 0 1; S_ true 0 true 1 10]);
  (3075, [S_ true 0 true 0 1; S_ true 1 true 1 10]);
  (3077, [S_ true 0 true 0 1; S_ true 0 true 1 8; S_ true 0 true 2 2]);
  (3079, [S_ true 0 true 0 1; S_ true 0 true 1 7; S_ false 0 true 2 3]);
  (3081, [S_ true 0 true 0 1; S_ true 0 true 1 7; S_ true 0 true 2 3]);
  (3083, [S_ true 0 true 0 1; S_ true 1 true 1 8; S_ false 0 true 2 2]);
  (3085, [S_ true 0 true 0 1; S_ true 1 true 1 8; S_ true 0 true 2 2]);
  (3087, [S_ true 0 true 0 1; S_ true 0 true 1 6; S_ false 0 true 2 4]);
  (3089, [S_ true 0 true 0 1; S_ true 0 true 1 6; S_ true 0 true 2 4]);
  (3091, [S_ true 0 true 0 1; S_ true 0 true 1 6; S_ true 1 true 2 4]);
  (3093, [S_ true 0 true 0 1; S_ true 1 true 1 7; S_ false 1 true 2 3]);
  (3095, [S_ true 0 true 0 1; S_ true 1 true 1 7; S_ false 0 true 2 3]);
  (3097, [S_ true 0 true 0 1; S_ true 1 true 1 7; S_ true 0 true 2 3]);
  (3099, [S_ true 0 true 0 1; S_ true 1 true 1 7; S_ true 1 true 2 3]);
  (3101, [S_ true 0 true 0 1; S_ true 0 true 1 5; S_ false 1 true 2 5]);
  (3103, [S_ true 0 true 0 1; S_ true 0 true 1 5; S_ false 0 true 2 5]);
  (3105, [S_ true 0 true 0 1; S_ true 0 true 1 5; S_ true 0 true 2 5]);
  (3107, [S_ true 0 true 0 1; S_ true 0 true 1 5; S_ true 1 true 2 5]);
  (3109, [S_ true 0 true 0 1; S_ true 0 true 1 5; S_ true 0 true 2 3; S_ true 0 true 3 2]);
  (3111, [S_ true 0 true 0 1; S_ true 0 true 1 5; S_ true 0 true 2 2; S_ false 0 true 3 3]);
  (3113, [S_ true 0 true 0 1; S_ true 0 true 1 5; S_ true 0 true 2 2; S_ true 0 true 3 3]);
  (3115, [S_ true 0 true 0 1; S_ true 1 true 1 6; S_ false 0 true 2 2; S_ false 0 true 3 2]);
  (3117, [S_ true 0 true 0 1; S_ true 1 true 1 6; S_ false 1 true 2 4]);
  (3119, [S_ true 0 true 0 1; S_ true 1 true 1 6; S_ false 0 true 2 4]);
  (3121, [S_ true 0 true 0 1; S_ true 1 true 1 6; S_ true 0 true 2 4]);
  (3123, [S_ true 0 true 0 1; S_ true 1 true 1 6; S_ true 1 true 2 4]);
  (3125, [S_ true 0 true 0 1; S_ true 1 true 1 6; S_ true 0 true 2 2; S_ true 0 true 3 2]);
  (3127, [S_ true 0 true 0 1; S_ true 0 true 1 4; S_ false 0 true 2 3; S_ false 0 true 3 3]);
  (3129, [S_ false 0 true 0 3; S_ false 1 true 1 3; S_ false 1 true 2 6]);
  (3131, [S_ true 0 true 0 1; S_ true 0 true 1 4; S_ false 0 true 2 4; S_ false 0 true 3 2]);
  (3133, [S_ true 0 true 0 1; S_ true 0 true 1 4; S_ false 1 true 2 6]);
  (3135, [S_ true 0 true 0 1; S_ true 0 true 1 4; S_ false 0 true 2 6]);
  (3137, [S_ true 0 true 0 1; S_ true 0 true 1 4; S_ true 0 true 2 6]);
  (3139, [S_ true 0 true 0 1; S_ true 0 true 1 4; S_ true 1 true 2 6]);
  (3141, [S_ true 0 true 0 1; S_ true 0 true 1 4; S_ true 0 true 2 4; S_ true 0 true 3 2]);
  (3143, [S_ false 0 true 0 3; S_ false 1 true 1 3; S_ true 1 true 2 6]);
  (3145, [S_ true 0 true 0 1; S_ true 0 true 1 4; S_ true 0 true 2 3; S_ true 0 true 3 3]);
  (3147, [S_ true 0 true 0 1; S_ true 0 true 1 4; S_ true 1 true 2 4; S_ false 0 true 3 2]);
  (3149, [S_ true 0 true 0 1; S_ true 0 true 1 4; S_ true 1 true 2 4; S_ true 0 true 3 2]);
  (3151, [S_ false 0 true 0 4; S_ false 1 true 0 6; S_ true 1 true 2 6]);
  (3153, [S_ true 0 true 0 4; S_ true 1 true 0 5; S_ true 1 true 2 6]);
  (3155, [S_ true 0 true 0 1; S_ true 1 true 1 5; S_ false 1 true 2 3; S_ false 0 true 3 2]);
  (3157, [S_ true 0 true 0 1; S_ true 1 true 1 5; S_ false 1 true 2 3; S_ true 0 true 3 2]);
  (3159, [S_ true 0 true 0 1; S_ true 1 true 1 5; S_ false 0 true 2 2; S_ false 0 true 3 3]);
  (3161, [S_ true 0 true 0 1; S_ true 1 true 1 5; S_ false 0 true 2 2; S_ true 0 true 3 3]);
  (3163, [S_ true 0 true 0 1; S_ true 1 true 1 5; S_ false 0 true 2 3; S_ false 0 true 3 2]);
  (3165, [S_ true 0 true 0 1; S_ true 1 true 1 5; S_ false 1 true 2 5]);
  (3167, [S_ true 0 true 0 1; S_ true 1 true 1 5; S_ false 0 true 2 5]);
  (3169, [S_ true 0 true 0 1; S_ true 1 true 1 5; S_ true 0 true 2 5]);
  (3171, [S_ true 0 true 0 1; S_ true 1 true 1 5; S_ true 1 true 2 5]);
  (3173, [S_ true 0 true 0 1; S_ true 1 true 1 5; S_ true 0 true 2 3; S_ true 0 true 3 2]);
  (3175, [S_ false 0 true 0 7; S_ true 1 true 1 1; S_ true 1 true 2 3]);
  (3177, [S_ true 0 true 0 1; S_ true 1 true 1 5; S_ true 0 true 2 2; S_ true 0 true 3 3]);
  (3179, [S_ true 0 true 0 1; S_ true 1 true 1 5; S_ true 1 true 2 3; S_ false 0 true 3 2]);
  (3181, [S_ true 0 true 0 1; S_ true 1 true 1 5; S_ true 1 true 2 3; S_ true 0 true 3 2]);
  (3183, [S_ true 0 true 0 4; S_ true 1 true 0 3; S_ false 1 true 2 7]);
  (3185, [S_ true 0 true 0 6; S_ true 1 true 1 1; S_ true 1 true 2 4]);
  (3187, [S_ true 0 true 0 1; S_ true 0 true 1 3; S_ false 1 true 2 5; S_ false 0 true 3 2]);
  (3189, [S_ true 0 true 0 1; S_ true 0 true 1 3; S_ false 1 true 2 5; S_ true 0 true 3 2]);
  (3191, [S_ true 0 true 0 3; S_ true 1 true 0 4; S_ false 1 true 2 7]);
  (3193, [S_ false 0 true 0 3; S_ false 1 true 0 5; S_ false 1 true 2 7]);
  (3195, [S_ true 0 true 0 2; S_ true 1 true 1 2; S_ false 1 true 2 7]);
  (3197, [S_ true 0 true 0 1; S_ true 0 true 1 3; S_ false 1 true 2 7]);
  (3199, [S_ true 0 true 0 1; S_ true 0 true 1 3; S_ false 0 true 2 7]);
  (3201, [S_ true 0 true 0 1; S_ true 0 true 1 3; S_ true 0 true 2 7]);
  (3203, [S_ true 0 true 0 1; S_ true 0 true 1 3; S_ true 1 true 2 7]);
  (3205, [S_ true 0 true 0 2; S_ true 1 true 1 2; S_ true 1 true 2 7]);
  (3207, [S_ false 0 true 0 3; S_ false 1 true 0 5; S_ true 1 true 2 7]);
  (3209, [S_ true 0 true 0 3; S_ true 1 true 0 4; S_ true 1 true 2 7]);
  (3211, [S_ true 0 true 0 1; S_ true 0 true 1 3; S_ true 1 true 2 5; S_ false 0 true 3 2]);
  (3213, [S_ true 0 true 0 1; S_ true 1 true 1 4; S_ false 2 true 2 6]);
  (3215, [S_ true 0 true 0 1; S_ true 0 true 1 3; S_ true 0 true 2 3; S_ false 0 true 3 4]);
  (3217, [S_ true 0 true 0 4; S_ true 1 true 0 3; S_ true 1 true 2 7]);
  (3219, [S_ true 0 true 0 2; S_ true 1 true 1 2; S_ true 1 true 2 5; S_ false 0 true 3 2]);
  (3221, [S_ true 0 true 0 2; S_ true 1 true 1 2; S_ true 1 true 2 5; S_ true 0 true 3 2]);
  (3223, [S_ true 0 true 0 1; S_ true 0 true 1 3; S_ true 1 true 2 4; S_ false 0 true 3 3]);
  (3225, [S_ true 0 true 0 7; S_ true 1 true 1 1; S_ true 1 true 2 3]);
  (3227, [S_ false 0 true 0 3; S_ false 1 true 0 5; S_ true 1 true 2 5; S_ false 0 true 3 2]);
  (3229, [S_ false 0 true 0 3; S_ false 1 true 0 5; S_ true 1 true 2 5; S_ true 0 true 3 2]);
  (3231, [S_ true 0 true 0 1; S_ true 0 true 1 3; S_ true 0 true 2 2; S_ false 0 true 3 5]);
  (3233, [S_ true 0 true 0 5; S_ true 1 false 0 3; S_ true 1 true 2 7]);
  (3235, [S_ true 0 true 0 3; S_ true 1 true 0 4; S_ true 1 true 2 5; S_ false 0 true 3 2]);
  (3237, [S_ true 0 true 0 3; S_ true 1 true 0 4; S_ true 1 true 2 5; S_ true 0 true 3 2]);
  (3239, [S_ true 0 true 0 1; S_ true 1 true 1 4; S_ false 1 true 2 3; S_ false 0 true 3 3]);
  (3241, [S_ true 0 true 0 1; S_ true 1 true 1 4; S_ false 1 true 2 3; S_ true 0 true 3 3]);
  (3243, [S_ true 0 true 0 1; S_ true 1 true 1 4; S_ false 1 true 2 3; S_ true 1 true 3 3]);
  (3245, [S_ true 0 true 0 1; S_ true 1 true 1 4; S_ false 0 true 2 2; S_ false 1 true 3 4]);
  (3247, [S_ true 0 true 0 4; S_ true 1 true 1 1; S_ false 1 true 2 6]);
  (3249, [S_ true 0 true 0 1; S_ true 1 true 1 4; S_ false 0 true 2 2; S_ true 0 true 3 4]);
  (3251, [S_ true 0 true 0 1; S_ true 1 true 1 4; S_ false 1 true 2 4; S_ false 0 true 3 2]);
  (3253, [S_ true 0 true 0 1; S_ true 1 true 1 4; S_ false 1 true 2 4; S_ true 0 true 3 2]);
  (3255, [S_ false 0 true 0 3; S_ false 1 true 1 4; S_ false 2 true 2 5]);
  (3257, [S_ true 0 true 0 1; S_ true 1 true 1 4; S_ false 0 true 2 3; S_ true 0 true 3 3]);
  (3259, [S_ true 0 true 0 1; S_ true 1 true 1 4; S_ false 0 true 2 4; S_ false 0 true 3 2]);
  (3261, [S_ true 0 true 0 1; S_ true 1 true 1 4; S_ false 1 true 2 6]);
  (3263, [S_ true 0 true 0 1; S_ true 1 true 1 4; S_ false 0 true 2 6]);
  (3265, [S_ true 0 true 0 1; S_ true 1 true 1 4; S_ true 0 true 2 6]);
  (3267, [S_ true 0 true 0 1; S_ true 1 true 1 4; S_ true 1 true 2 6]);
  (3269, [S_ true 0 true 0 1; S_ true 1 true 1 4; S_ true 0 true 2 4; S_ true 0 true 3 2]);
  (3271, [S_ true 0 true 0 1; S_ true 1 true 1 4; S_ true 0 true 2 3; S_ false 0 true 3 3]);
  (3273, [S_ true 0 true 0 1; S_ true 1 true 1 4; S_ true 0 true 2 3; S_ true 0 true 3 3]);
  (3275, [S_ true 0 true 0 1; S_ true 1 true 1 4; S_ true 1 true 2 4; S_ false 0 true 3 2]);
  (3277, [S_ true 0 true 0 1; S_ true 1 true 1 4; S_ true 1 true 2 4; S_ true 0 true 3 2]);
  (3279, [S_ true 0 true 0 1; S_ true 1 true 1 4; S_ true 0 true 2 2; S_ false 0 true 3 4]);
  (3281, [S_ true 0 true 0 4; S_ true 1 true 1 1; S_ true 1 true 2 6]);
  (3283, [S_ true 0 true 0 1; S_ true 1 true 1 4; S_ true 0 true 2 2; S_ true 1 true 3 4]);
  (3285, [S_ true 0 true 0 1; S_ true 1 true 1 4; S_ true 1 true 2 3; S_ false 1 true 3 3]);
  (3287, [S_ true 0 true 0 1; S_ true 1 true 1 4; S_ true 1 true 2 3; S_ false 0 true 3 3]);
  (3289, [S_ true 0 true 0 1; S_ true 1 true 1 4; S_ true 1 true 2 3; S_ true 0 true 3 3]);
  (3291, [S_ true 0 true 0 3; S_ true 1 true 0 2; S_ false 1 true 2 6; S_ false 0 true 3 2]);
  (3293, [S_ true 0 true 0 3; S_ true 1 true 0 2; S_ false 1 true 2 6; S_ true 0 true 3 2]);
  (3295, [S_ true 0 true 0 1; S_ true 0 true 1 2; S_ false 0 true 2 3; S_ false 0 true 3 5]);
  (3297, [S_ true 0 true 0 1; S_ true 0 true 1 2; S_ false 0 true 2 3; S_ true 0 true 3 5]);
  (3299, [S_ false 0 true 0 3; S_ false 0 true 1 1; S_ false 1 true 2 6; S_ false 0 true 3 2]);
  (3301, [S_ false 0 true 0 3; S_ false 0 true 1 1; S_ false 1 true 2 6; S_ true 0 true 3 2]);
  (3303, [S_ true 0 true 0 1; S_ true 0 true 1 2; S_ false 1 true 2 5; S_ false 0 true 3 3]);
  (3305, [S_ true 0 true 0 1; S_ true 0 true 1 2; S_ false 1 true 2 5; S_ true 0 true 3 3]);
  (3307, [S_ true 0 true 0 2; S_ true 1 true 0 3; S_ false 1 true 2 6; S_ false 0 true 3 2]);
  (3309, [S_ true 0 true 0 2; S_ true 1 true 0 3; S_ false 1 true 2 6; S_ true 0 true 3 2]);
  (3311, [S_ true 0 true 0 4; S_ true 1 false 0 2; S_ false 1 true 2 8]);
  (3313, [S_ false 0 true 0 4; S_ true 1 false 0 1; S_ false 1 true 2 8]);
  (3315, [S_ false 0 true 0 8; S_ true 1 true 1 1; S_ true 1 true 2 2]);
  (3317, [S_ true 0 true 0 1; S_ true 0 true 1 2; S_ false 1 true 2 6; S_ true 0 true 3 2]);
  (3319, [S_ true 0 true 0 3; S_ true 1 true 0 2; S_ false 1 true 2 8]);
  (3321, [S_ false 0 true 0 3; S_ false 0 true 1 1; S_ false 1 true 2 8]);
  (3323, [S_ true 0 true 0 2; S_ true 1 true 0 3; S_ false 1 true 2 8]);
  (3325, [S_ true 0 true 0 1; S_ true 0 true 1 2; S_ false 1 true 2 8]);
  (3327, [S_ true 0 true 0 1; S_ true 0 true 1 2; S_ false 0 true 2 8]);
  (3329, [S_ true 0 true 0 1; S_ true 0 true 1 2; S_ true 0 true 2 8]);
  (3331, [S_ true 0 true 0 1; S_ true 0 true 1 2; S_ true 1 true 2 8]);
  (3333, [S_ true 0 true 0 2; S_ true 1 true 0 3; S_ true 1 true 2 8]);
  (3335, [S_ false 0 true 0 3; S_ false 0 true 1 1; S_ true 1 true 2 8]);
  (3337, [S_ true 0 true 0 3; S_ true 1 true 0 2; S_ true 1 true 2 8]);
  (3339, [S_ true 0 true 0 1; S_ true 0 true 1 2; S_ true 1 true 2 6; S_ false 0 true 3 2]);
  (3341, [S_ true 0 true 0 8; S_ true 1 true 1 1; S_ true 1 true 2 2]);
  (3343, [S_ false 0 true 0 4; S_ true 1 false 0 1; S_ true 1 true 2 8]);
  (3345, [S_ true 0 true 0 4; S_ true 1 false 0 2; S_ true 1 true 2 8]);
  (3347, [S_ true 0 true 0 2; S_ true 1 true 0 3; S_ true 1 true 2 6; S_ false 0 true 3 2]);
  (3349, [S_ true 0 true 0 2; S_ true 1 true 0 3; S_ true 1 true 2 6; S_ true 0 true 3 2]);
  (3351, [S_ false 0 true 0 3; S_ false 1 true 1 4; S_ false 0 true 2 2; S_ false 0 true 3 3]);
  (3353, [S_ false 0 true 0 3; S_ false 1 true 1 4; S_ false 1 true 2 5]);
  (3355, [S_ false 0 true 0 3; S_ false 1 true 1 4; S_ false 0 true 2 3; S_ false 0 true 3 2]);
  (3357, [S_ false 0 true 0 3; S_ false 1 true 1 4; S_ false 0 true 2 3; S_ true 0 true 3 2]);
  (3359, [S_ false 0 true 0 3; S_ false 1 true 1 4; S_ false 0 true 2 5]);
  (3361, [S_ false 0 true 0 3; S_ false 1 true 1 4; S_ true 0 true 2 5]);
  (3363, [S_ false 0 true 0 3; S_ false 1 true 1 4; S_ true 0 true 2 3; S_ false 0 true 3 2]);
  (3365, [S_ false 0 true 0 3; S_ false 1 true 1 4; S_ true 0 true 2 3; S_ true 0 true 3 2]);
  (3367, [S_ false 0 true 0 3; S_ false 1 true 1 4; S_ true 1 true 2 5]);
  (3369, [S_ false 0 true 0 3; S_ false 1 true 1 4; S_ true 0 true 2 2; S_ true 0 true 3 3]);
  (3371, [S_ true 0 true 0 2; S_ false 1 true 0 5; S_ false 1 true 2 3; S_ false 1 true 3 4]);
  (3373, [S_ false 0 true 0 3; S_ false 1 true 1 4; S_ true 1 true 2 4; S_ false 0 true 3 1]);
  (3375, [S_ false 0 true 0 4; S_ false 1 true 1 3; S_ true 1 true 2 5]);
  (3377, [S_ false 0 true 0 3; S_ false 1 true 1 4; S_ true 0 true 2 1; S_ true 0 true 3 4]);
  (3379, [S_ true 0 true 0 6; S_ true 1 true 1 1; S_ true 1 true 2 2; S_ false 0 true 3 2]);
  (3381, [S_ true 0 true 0 6; S_ true 1 true 1 1; S_ true 1 true 2 2; S_ true 0 true 3 2]);
  (3383, [S_ true 0 true 0 3; S_ true 1 true 1 1; S_ false 1 true 2 4; S_ false 0 true 3 3]);
  (3385, [S_ true 0 true 0 3; S_ true 1 true 1 1; S_ false 1 true 2 4; S_ true 0 true 3 3]);
  (3387, [S_ false 0 true 0 3; S_ false 1 true 1 4; S_ true 1 true 2 3; S_ false 0 true 3 2]);
  (3389, [S_ false 0 true 0 3; S_ false 1 true 1 4; S_ true 1 true 2 3; S_ true 0 true 3 2]);
  (3391, [S_ true 0 true 0 1; S_ true 0 true 1 2; S_ true 0 true 2 2; S_ false 0 true 3 6]);
  (3393, [S_ true 0 true 0 1; S_ true 0 true 1 2; S_ true 0 true 2 2; S_ true 0 true 3 6]);
  (3395, [S_ true 0 true 0 4; S_ true 1 false 0 2; S_ true 1 true 2 6; S_ false 0 true 3 2]);
  (3397, [S_ true 0 true 0 4; S_ true 1 false 0 2; S_ true 1 true 2 6; S_ true 0 true 3 2]);
  (3399, [S_ true 0 true 0 3; S_ true 1 true 0 2; S_ true 1 true 2 5; S_ false 0 true 3 3]);
  (3401, [S_ true 0 true 0 3; S_ true 1 true 0 2; S_ true 1 true 2 5; S_ true 0 true 3 3]);
  (3403, [S_ false 0 true 0 6; S_ false 1 true 1 3; S_ false 1 true 2 2; S_ true 0 true 3 1]);
  (3405, [S_ true 0 true 0 1; S_ true 1 true 1 3; S_ false 1 true 2 3; S_ false 1 true 3 4]);
  (3407, [S_ true 0 true 0 1; S_ true 1 true 1 3; S_ false 1 true 2 3; S_ false 0 true 3 4]);
  (3409, [S_ true 0 true 0 1; S_ true 1 true 1 3; S_ false 1 true 2 3; S_ true 0 true 3 4]);
  (3411, [S_ false 0 true 0 5; S_ false 1 true 1 3; S_ false 1 true 2 3; S_ true 0 true 3 1]);
  (3413, [S_ true 0 true 0 1; S_ false 1 true 0 6; S_ false 2 true 2 3; S_ false 1 true 3 3]);
  (3415, [S_ true 0 true 0 2; S_ false 1 true 0 5; S_ false 1 true 2 4; S_ false 0 true 3 3]);
  (3417, [S_ true 0 true 0 2; S_ false 1 true 0 5; S_ false 1 true 2 4; S_ true 0 true 3 3]);
  (3419, [S_ true 0 true 0 3; S_ true 1 true 1 1; S_ false 1 true 2 5; S_ false 0 true 3 2]);
  (3421, [S_ true 0 true 0 3; S_ true 1 true 1 1; S_ false 1 true 2 5; S_ true 0 true 3 2]);
  (3423, [S_ false 0 true 0 3; S_ false 0 true 1 2; S_ false 0 true 2 2; S_ false 0 true 3 5]);
  (3425, [S_ false 0 true 0 5; S_ true 1 false 0 2; S_ false 1 true 2 7]);
  (3427, [S_ false 0 true 0 3; S_ false 0 true 1 2; S_ false 1 true 2 5; S_ false 0 true 3 2]);
  (3429, [S_ false 0 true 0 7; S_ false 1 true 1 3; S_ false 1 true 2 2]);
  (3431, [S_ true 0 true 0 1; S_ true 1 true 1 3; S_ false 1 true 2 4; S_ false 0 true 3 3]);
  (3433, [S_ true 0 true 0 1; S_ true 1 true 1 3; S_ false 1 true 2 4; S_ true 0 true 3 3]);
  (3435, [S_ true 0 true 0 2; S_ false 1 true 0 5; S_ false 1 true 2 5; S_ false 0 true 3 2]);
  (3437, [S_ true 0 true 0 2; S_ false 1 true 0 5; S_ false 1 true 2 5; S_ true 0 true 3 2]);
  (3439, [S_ false 0 true 0 3; S_ false 0 true 1 2; S_ false 0 true 2 3; S_ false 0 true 3 4]);
  (3441, [S_ false 0 true 0 5; S_ false 1 true 1 3; S_ false 1 true 2 4]);
  (3443, [S_ true 0 true 0 1; S_ true 1 true 1 3; S_ false 1 true 2 5; S_ false 0 true 3 2]);
  (3445, [S_ true 0 true 0 1; S_ true 1 true 1 3; S_ false 1 true 2 5; S_ true 0 true 3 2]);
  (3447, [S_ true 0 true 0 3; S_ true 1 true 1 1; S_ false 1 true 2 7]);
  (3449, [S_ false 0 true 0 3; S_ false 0 true 1 2; S_ false 1 true 2 7]);
  (3451, [S_ true 0 true 0 2; S_ false 1 true 0 5; S_ false 1 true 2 7]);
  (3453, [S_ true 0 true 0 1; S_ true 1 true 1 3; S_ false 1 true 2 7]);
  (3455, [S_ false 0 true 0 3; S_ false 0 true 1 2; S_ false 0 true 2 7]);
  (3457, [S_ false 0 true 0 3; S_ false 0 true 1 2; S_ true 0 true 2 7]);
  (3459, [S_ true 0 true 0 1; S_ true 1 true 1 3; S_ true 1 true 2 7]);
  (3461, [S_ true 0 true 0 2; S_ false 1 true 0 5; S_ true 1 true 2 7]);
  (3463, [S_ false 0 true 0 3; S_ false 0 true 1 2; S_ true 1 true 2 7]);
  (3465, [S_ true 0 true 0 3; S_ true 1 true 1 1; S_ true 1 true 2 7]);
  (3467, [S_ false 0 true 0 3; S_ false 1 true 1 5; S_ false 0 true 2 2; S_ false 0 true 3 2]);
  (3469, [S_ false 0 true 0 3; S_ false 1 true 1 5; S_ false 0 true 2 2; S_ true 0 true 3 2]);
  (3471, [S_ false 0 true 0 3; S_ false 1 true 1 5; S_ false 0 true 2 4]);
  (3473, [S_ false 0 true 0 3; S_ false 1 true 1 5; S_ true 0 true 2 4]);
  (3475, [S_ false 0 true 0 3; S_ false 1 true 1 5; S_ true 0 true 2 2; S_ false 0 true 3 2]);
  (3477, [S_ false 0 true 0 3; S_ false 1 true 1 5; S_ true 0 true 2 2; S_ true 0 true 3 2]);
  (3479, [S_ false 0 true 0 3; S_ false 1 true 1 5; S_ true 1 true 2 4]);
  (3481, [S_ false 0 true 0 3; S_ false 1 true 1 5; S_ true 0 true 2 1; S_ true 0 true 3 3]);
  (3483, [S_ true 0 true 0 7; S_ false 1 true 1 3; S_ false 1 true 2 2]);
  (3485, [S_ true 0 true 0 3; S_ false 1 true 0 6; S_ false 1 true 2 4; S_ true 0 true 3 2]);
  (3487, [S_ false 0 true 0 5; S_ true 1 false 0 2; S_ true 1 true 2 7]);
  (3489, [S_ false 0 true 0 3; S_ false 0 true 1 2; S_ true 0 true 2 2; S_ true 0 true 3 5]);
  (3491, [S_ true 0 true 0 3; S_ true 1 true 1 1; S_ true 1 true 2 5; S_ false 0 true 3 2]);
  (3493, [S_ true 0 true 0 3; S_ true 1 true 1 1; S_ true 1 true 2 5; S_ true 0 true 3 2]);
  (3495, [S_ true 0 true 0 2; S_ false 1 true 0 5; S_ true 1 true 2 4; S_ false 0 true 3 3]);
  (3497, [S_ true 0 true 0 2; S_ false 1 true 0 5; S_ true 1 true 2 4; S_ true 0 true 3 3]);
  (3499, [S_ false 0 true 0 3; S_ false 1 true 1 5; S_ true 1 true 2 2; S_ false 0 true 3 2]);
  (3501, [S_ true 0 true 0 3; S_ false 1 true 0 6; S_ false 1 true 2 5; S_ false 0 true 3 1]);
  (3503, [S_ false 0 true 0 5; S_ false 1 true 1 3; S_ true 1 true 2 4]);
  (3505, [S_ false 0 true 0 3; S_ false 0 true 1 3; S_ false 0 true 2 2; S_ true 0 true 3 4]);
  (3507, [S_ false 0 true 0 3; S_ false 0 true 1 3; S_ false 1 true 2 5; S_ true 0 true 3 1]);
  (3509, [S_ true 0 true 0 6; S_ false 1 true 1 3; S_ false 1 true 2 2; S_ false 0 true 3 1]);
  (3511, [S_ true 0 true 0 3; S_ false 1 true 0 6; S_ false 1 true 2 6]);
  (3513, [S_ false 0 true 0 3; S_ false 0 true 1 3; S_ false 1 true 2 6]);
  (3515, [S_ false 0 true 0 3; S_ false 0 true 1 3; S_ false 0 true 2 4; S_ false 0 true 3 2]);
  (3517, [S_ false 0 true 0 3; S_ false 0 true 1 3; S_ false 0 true 2 4; S_ true 0 true 3 2]);
  (3519, [S_ false 0 true 0 3; S_ false 0 true 1 3; S_ false 0 true 2 6]);
  (3521, [S_ false 0 true 0 3; S_ false 0 true 1 3; S_ true 0 true 2 6]);
  (3523, [S_ false 0 true 0 3; S_ false 0 true 1 3; S_ true 0 true 2 4; S_ false 0 true 3 2]);
  (3525, [S_ false 0 true 0 3; S_ false 0 true 1 3; S_ true 0 true 2 4; S_ true 0 true 3 2]);
  (3527, [S_ false 0 true 0 3; S_ false 1 true 1 6; S_ false 0 true 2 3]);
  (3529, [S_ false 0 true 0 3; S_ false 1 true 1 6; S_ true 0 true 2 3]);
  (3531, [S_ false 0 true 0 3; S_ false 1 true 1 6; S_ true 0 true 2 1; S_ false 0 true 3 2]);
  (3533, [S_ false 0 true 0 3; S_ false 1 true 1 6; S_ true 0 true 2 1; S_ true 0 true 3 2]);
  (3535, [S_ false 0 true 0 3; S_ false 1 true 1 6; S_ true 1 true 2 3]);
  (3537, [S_ false 0 true 0 3; S_ false 0 true 1 3; S_ true 0 true 2 2; S_ true 0 true 3 4]);
  (3539, [S_ true 0 true 0 3; S_ false 1 true 0 6; S_ true 1 true 2 5; S_ true 0 true 3 1]);
  (3541, [S_ false 0 true 0 3; S_ false 0 true 1 5; S_ false 1 true 2 2; S_ true 0 true 3 2]);
  (3543, [S_ false 0 true 0 3; S_ false 0 true 1 4; S_ false 0 true 2 2; S_ false 0 true 3 3]);
  (3545, [S_ false 0 true 0 3; S_ false 0 true 1 4; S_ false 1 true 2 5]);
  (3547, [S_ false 0 true 0 3; S_ false 0 true 1 4; S_ false 0 true 2 3; S_ false 0 true 3 2]);
  (3549, [S_ false 0 true 0 3; S_ false 1 true 1 7; S_ false 1 true 2 2]);
  (3551, [S_ false 0 true 0 3; S_ false 0 true 1 4; S_ false 0 true 2 5]);
  (3553, [S_ false 0 true 0 3; S_ false 0 true 1 4; S_ true 0 true 2 5]);
  (3555, [S_ false 0 true 0 3; S_ false 1 true 1 7; S_ false 0 true 2 2]);
  (3557, [S_ false 0 true 0 3; S_ false 1 true 1 7; S_ true 0 true 2 2]);
  (3559, [S_ false 0 true 0 3; S_ false 0 true 1 4; S_ true 1 true 2 5]);
  (3561, [S_ false 0 true 0 3; S_ false 0 true 1 5; S_ false 1 true 2 4]);
  (3563, [S_ false 0 true 0 3; S_ false 1 true 1 7; S_ true 1 true 2 2]);
  (3565, [S_ false 0 true 0 3; S_ false 0 true 1 5; S_ false 0 true 2 2; S_ true 0 true 3 2]);
  (3567, [S_ false 0 true 0 3; S_ false 0 true 1 5; S_ false 0 true 2 4]);
  (3569, [S_ false 0 true 0 3; S_ false 0 true 1 5; S_ true 0 true 2 4]);
  (3571, [S_ false 0 true 0 3; S_ false 1 true 1 8; S_ true 0 true 2 1]);
  (3573, [S_ false 0 true 0 3; S_ false 0 true 1 7; S_ false 1 true 2 2]);
  (3575, [S_ false 0 true 0 3; S_ false 0 true 1 6; S_ false 0 true 2 3]);
  (3577, [S_ false 0 true 0 3; S_ false 1 true 1 9]);
  (3579, [S_ false 0 true 0 3; S_ false 0 true 1 7; S_ false 0 true 2 2]);
  (3581, [S_ false 0 true 0 3; S_ false 0 true 1 7; S_ true 0 true 2 2]);
  (3583, [S_ false 0 true 0 3; S_ false 0 true 1 9])].

Definition asc_chunk_7 : asc_map := [
  (3585, [S_ false 0 true 0 3; S_ true 0 true 1 9]);
  (3587, [S_ false 0 true 0 3; S_ true 0 true 1 7; S_ false 0 true 2 2]);
  (3589, [S_ false 0 true 0 3; S_ true 0 true 1 7; S_ true 0 true 2 2]);
  (3591, [S_ false 0 true 0 3; S_ true 1 true 1 9]);
  (3593, [S_ false 0 true 0 3; S_ true 0 true 1 6; S_ true 0 true 2 3]);
  (3595, [S_ false 0 true 0 3; S_ true 0 true 1 7; S_ true 1 true 2 2]);
  (3597, [S_ false 0 true 0 3; S_ true 1 true 1 8; S_ false 0 true 2 1]);
  (3599, [S_ false 0 true 0 3; S_ true 0 true 1 5; S_ false 0 true 2 4]);
  (3601, [S_ false 0 true 0 3; S_ true 0 true 1 5; S_ true 0 true 2 4]);
  (3603, [S_ false 0 true 0 3; S_ true 0 true 1 5; S_ true 0 true 2 2; S_ false 0 true 3 2]);
  (3605, [S_ false 0 true 0 3; S_ true 1 true 1 7; S_ false 1 true 2 2]);
  (3607, [S_ false 0 true 0 3; S_ true 0 true 1 5; S_ true 1 true 2 4]);
  (3609, [S_ false 0 true 0 3; S_ true 0 true 1 4; S_ false 1 true 2 5]);
  (3611, [S_ false 0 true 0 3; S_ true 1 true 1 7; S_ false 0 true 2 2]);
  (3613, [S_ false 0 true 0 3; S_ true 1 true 1 7; S_ true 0 true 2 2]);
  (3615, [S_ false 0 true 0 3; S_ true 0 true 1 4; S_ false 0 true 2 5]);
  (3617, [S_ false 0 true 0 3; S_ true 0 true 1 4; S_ true 0 true 2 5]);
  (3619, [S_ false 0 true 0 3; S_ true 1 true 1 7; S_ true 1 true 2 2]);
  (3621, [S_ false 0 true 0 3; S_ true 0 true 1 4; S_ true 0 true 2 3; S_ true 0 true 3 2]);
  (3623, [S_ false 0 true 0 3; S_ true 0 true 1 4; S_ true 1 true 2 5]);
  (3625, [S_ false 0 true 0 3; S_ true 0 true 1 4; S_ true 0 true 2 2; S_ true 0 true 3 3]);
  (3627, [S_ false 0 true 0 3; S_ true 0 true 1 5; S_ true 1 true 2 2; S_ false 0 true 3 2]);
  (3629, [S_ false 0 true 0 3; S_ true 0 true 1 4; S_ true 1 true 2 4; S_ false 0 true 3 1]);
  (3631, [S_ false 0 true 0 4; S_ false 1 true 0 7; S_ true 1 true 2 5]);
  (3633, [S_ false 0 true 0 3; S_ true 1 true 1 6; S_ false 1 true 2 3]);
  (3635, [S_ false 0 true 0 3; S_ true 1 true 1 6; S_ false 0 true 2 1; S_ false 0 true 3 2]);
  (3637, [S_ false 0 true 0 3; S_ true 1 true 1 6; S_ false 0 true 2 1; S_ true 0 true 3 2]);
  (3639, [S_ false 0 true 0 3; S_ true 1 true 1 6; S_ false 0 true 2 3]);
  (3641, [S_ false 0 true 0 3; S_ true 1 true 1 6; S_ true 0 true 2 3]);
  (3643, [S_ false 0 true 0 3; S_ true 0 true 1 3; S_ false 0 true 2 4; S_ false 0 true 3 2]);
  (3645, [S_ false 0 true 0 3; S_ true 0 true 1 3; S_ false 0 true 2 4; S_ true 0 true 3 2]);
  (3647, [S_ false 0 true 0 3; S_ true 0 true 1 3; S_ false 0 true 2 6]);
  (3649, [S_ false 0 true 0 3; S_ true 0 true 1 3; S_ true 0 true 2 6]);
  (3651, [S_ false 0 true 0 3; S_ true 0 true 1 3; S_ true 0 true 2 4; S_ false 0 true 3 2]);
  (3653, [S_ false 0 true 0 3; S_ true 0 true 1 3; S_ true 0 true 2 4; S_ true 0 true 3 2]);
  (3655, [S_ false 0 true 0 3; S_ true 0 true 1 3; S_ true 1 true 2 6]);
  (3657, [S_ false 0 true 0 3; S_ true 0 true 1 3; S_ true 0 true 2 3; S_ true 0 true 3 3]);
  (3659, [S_ false 0 true 0 4; S_ false 1 true 1 4; S_ true 1 true 2 2; S_ false 0 true 3 2]);
  (3661, [S_ false 0 true 0 3; S_ true 0 true 1 3; S_ true 1 true 2 5; S_ false 0 true 3 1]);
  (3663, [S_ true 0 true 0 5; S_ false 1 true 1 3; S_ false 1 true 2 4]);
  (3665, [S_ false 0 true 0 3; S_ true 0 true 1 3; S_ true 0 true 2 2; S_ true 0 true 3 4]);
  (3667, [S_ false 0 true 0 3; S_ true 1 true 1 5; S_ false 1 true 2 2; S_ false 0 true 3 2]);
  (3669, [S_ false 0 true 0 3; S_ true 1 true 1 5; S_ false 1 true 2 2; S_ true 0 true 3 2]);
  (3671, [S_ false 0 true 0 3; S_ true 0 true 1 4; S_ true 1 true 2 2; S_ false 0 true 3 3]);
  (3673, [S_ false 0 true 0 3; S_ true 0 true 1 4; S_ true 1 true 2 2; S_ true 0 true 3 3]);
  (3675, [S_ false 0 true 0 3; S_ true 0 true 1 3; S_ true 1 true 2 4; S_ false 0 true 3 2]);
  (3677, [S_ false 0 true 0 3; S_ true 0 true 1 3; S_ true 1 true 2 4; S_ true 0 true 3 2]);
  (3679, [S_ true 0 true 0 5; S_ true 1 false 0 2; S_ false 1 true 2 7]);
  (3681, [S_ false 0 true 0 5; S_ true 1 false 0 1; S_ false 1 true 2 7]);
  (3683, [S_ false 0 true 0 7; S_ false 1 true 1 3; S_ true 1 true 2 2]);
  (3685, [S_ false 0 true 0 3; S_ true 0 true 1 2; S_ false 1 true 2 5; S_ true 0 true 3 2]);
  (3687, [S_ false 0 true 0 3; S_ true 1 true 1 5; S_ false 0 true 2 1; S_ false 0 true 3 3]);
  (3689, [S_ false 0 true 0 3; S_ true 1 true 1 5; S_ false 1 true 2 4]);
  (3691, [S_ false 0 true 0 3; S_ true 1 true 1 5; S_ false 0 true 2 2; S_ false 0 true 3 2]);
  (3693, [S_ false 0 true 0 3; S_ true 1 true 1 5; S_ false 0 true 2 2; S_ true 0 true 3 2]);
  (3695, [S_ false 0 true 0 3; S_ true 1 true 1 5; S_ false 0 true 2 4]);
  (3697, [S_ false 0 true 0 3; S_ true 1 true 1 5; S_ true 0 true 2 4]);
  (3699, [S_ false 0 true 0 3; S_ true 1 true 1 5; S_ true 0 true 2 2; S_ false 0 true 3 2]);
  (3701, [S_ false 0 true 0 3; S_ true 1 true 1 5; S_ true 0 true 2 2; S_ true 0 true 3 2]);
  (3703, [S_ false 0 true 0 3; S_ true 1 true 1 5; S_ true 1 true 2 4]);
  (3705, [S_ false 0 true 0 3; S_ true 0 true 1 2; S_ false 1 true 2 7]);
  (3707, [S_ false 0 true 0 3; S_ true 0 true 1 2; S_ false 0 true 2 5; S_ false 0 true 3 2]);
  (3709, [S_ true 0 true 0 1; S_ false 1 true 0 5; S_ false 1 true 2 7]);
  (3711, [S_ false 0 true 0 3; S_ true 0 true 1 2; S_ false 0 true 2 7]);
  (3713, [S_ false 0 true 0 3; S_ true 0 true 1 2; S_ true 0 true 2 7]);
  (3715, [S_ true 0 true 0 1; S_ false 1 true 0 5; S_ true 1 true 2 7]);
  (3717, [S_ false 0 true 0 6; S_ false 1 true 1 4; S_ false 1 true 2 2]);
  (3719, [S_ false 0 true 0 4; S_ false 1 true 1 5; S_ false 0 true 2 3]);
  (3721, [S_ false 0 true 0 4; S_ false 1 true 1 5; S_ true 0 true 2 3]);
  (3723, [S_ false 0 true 0 4; S_ false 1 true 1 5; S_ true 0 true 2 1; S_ false 0 true 3 2]);
  (3725, [S_ false 0 true 0 4; S_ false 1 true 1 5; S_ true 0 true 2 1; S_ true 0 true 3 2]);
  (3727, [S_ false 0 true 0 4; S_ false 0 true 1 1; S_ true 1 true 2 7]);
  (3729, [S_ true 0 true 0 5; S_ false 1 true 1 3; S_ true 1 true 2 4]);
  (3731, [S_ true 0 true 0 1; S_ false 1 true 0 5; S_ true 0 true 2 3; S_ true 1 true 3 4]);
  (3733, [S_ true 0 true 0 1; S_ false 1 true 0 5; S_ true 1 true 2 4; S_ false 1 true 3 3]);
  (3735, [S_ false 0 true 0 4; S_ false 1 true 1 5; S_ true 1 true 2 3]);
  (3737, [S_ true 0 true 0 1; S_ false 1 true 0 5; S_ true 1 true 2 4; S_ true 0 true 3 3]);
  (3739, [S_ false 0 true 0 3; S_ true 0 true 1 2; S_ true 1 true 2 5; S_ false 0 true 3 2]);
  (3741, [S_ true 0 true 0 7; S_ false 1 true 1 3; S_ true 1 true 2 2]);
  (3743, [S_ false 0 true 0 5; S_ true 1 false 0 1; S_ true 1 true 2 7]);
  (3745, [S_ true 0 true 0 5; S_ true 1 false 0 2; S_ true 1 true 2 7]);
  (3747, [S_ false 0 true 0 4; S_ false 0 true 1 2; S_ false 1 true 2 5; S_ true 0 true 3 1]);
  (3749, [S_ false 0 true 0 4; S_ false 0 true 1 3; S_ false 1 true 2 3; S_ true 0 true 3 2]);
  (3751, [S_ false 0 true 0 5; S_ false 1 true 1 4; S_ true 1 true 2 3]);
  (3753, [S_ false 0 true 0 3; S_ true 1 true 1 4; S_ false 1 true 2 2; S_ true 0 true 3 3]);
  (3755, [S_ true 0 true 0 2; S_ false 1 true 0 6; S_ false 1 true 2 4; S_ false 0 true 3 2]);
  (3757, [S_ true 0 true 0 2; S_ false 1 true 0 6; S_ false 1 true 2 4; S_ true 0 true 3 2]);
  (3759, [S_ false 0 true 0 4; S_ false 0 true 1 2; S_ false 0 true 2 2; S_ false 0 true 3 4]);
  (3761, [S_ false 0 true 0 4; S_ false 0 true 1 2; S_ false 1 true 2 6]);
  (3763, [S_ false 0 true 0 4; S_ false 0 true 1 4; S_ false 1 true 2 2; S_ false 0 true 3 2]);
  (3765, [S_ false 0 true 0 4; S_ false 1 true 1 6; S_ false 1 true 2 2]);
  (3767, [S_ false 0 true 0 4; S_ false 0 true 1 2; S_ false 0 true 2 3; S_ false 0 true 3 3]);
  (3769, [S_ false 0 true 0 4; S_ false 0 true 1 2; S_ false 0 true 2 3; S_ true 0 true 3 3]);
  (3771, [S_ true 0 true 0 2; S_ false 1 true 0 6; S_ false 1 true 2 6]);
  (3773, [S_ false 0 true 0 4; S_ false 0 true 1 2; S_ false 0 true 2 4; S_ true 0 true 3 2]);
  (3775, [S_ false 0 true 0 4; S_ false 0 true 1 2; S_ false 0 true 2 6]);
  (3777, [S_ false 0 true 0 4; S_ false 0 true 1 2; S_ true 0 true 2 6]);
  (3779, [S_ false 0 true 0 4; S_ false 1 true 1 6; S_ false 0 true 2 2]);
  (3781, [S_ false 0 true 0 4; S_ false 1 true 1 6; S_ true 0 true 2 2]);
  (3783, [S_ false 0 true 0 4; S_ false 0 true 1 2; S_ true 0 true 2 3; S_ false 0 true 3 3]);
  (3785, [S_ false 0 true 0 4; S_ false 0 true 1 2; S_ true 0 true 2 3; S_ true 0 true 3 3]);
  (3787, [S_ true 0 true 0 2; S_ false 1 true 0 6; S_ true 1 true 2 5; S_ true 0 true 3 1]);
  (3789, [S_ true 0 true 0 3; S_ false 1 true 0 7; S_ false 1 true 2 4; S_ false 0 true 3 1]);
  (3791, [S_ true 0 true 0 4; S_ false 1 true 1 3; S_ false 1 true 2 5]);
  (3793, [S_ false 0 true 0 4; S_ false 0 true 1 3; S_ false 1 true 2 5]);
  (3795, [S_ false 0 true 0 4; S_ false 1 true 1 6; S_ true 1 true 2 2]);
  (3797, [S_ true 0 true 0 2; S_ false 1 true 0 6; S_ true 1 true 2 4; S_ true 0 true 3 2]);
  (3799, [S_ true 0 true 0 3; S_ false 1 true 0 7; S_ false 1 true 2 5]);
  (3801, [S_ false 0 true 0 3; S_ true 1 true 1 4; S_ false 1 true 2 5]);
  (3803, [S_ false 0 true 0 4; S_ false 0 true 1 3; S_ false 0 true 2 3; S_ false 0 true 3 2]);
  (3805, [S_ false 0 true 0 4; S_ false 0 true 1 3; S_ false 0 true 2 3; S_ true 0 true 3 2]);
  (3807, [S_ false 0 true 0 4; S_ false 0 true 1 3; S_ false 0 true 2 5]);
  (3809, [S_ false 0 true 0 4; S_ false 0 true 1 3; S_ true 0 true 2 5]);
  (3811, [S_ false 0 true 0 4; S_ false 1 true 1 7; S_ true 0 true 2 1]);
  (3813, [S_ false 0 true 0 5; S_ false 1 true 1 5; S_ false 1 true 2 2]);
  (3815, [S_ false 0 true 0 3; S_ true 1 true 1 4; S_ true 1 true 2 5]);
  (3817, [S_ true 0 true 0 3; S_ false 1 true 0 7; S_ true 1 true 2 5]);
  (3819, [S_ false 0 true 0 4; S_ false 0 true 1 4; S_ false 0 true 2 2; S_ false 0 true 3 2]);
  (3821, [S_ false 0 true 0 4; S_ false 0 true 1 6; S_ false 1 true 2 2]);
  (3823, [S_ false 0 true 0 4; S_ false 0 true 1 4; S_ false 0 true 2 4]);
  (3825, [S_ false 0 true 0 4; S_ false 1 true 1 8]);
  (3827, [S_ false 0 true 0 4; S_ true 0 true 1 7; S_ false 1 true 2 1]);
  (3829, [S_ false 0 true 0 4; S_ true 0 true 1 6; S_ false 1 true 2 2]);
  (3831, [S_ false 0 true 0 4; S_ false 0 true 1 5; S_ false 0 true 2 3]);
  (3833, [S_ false 0 true 0 4; S_ false 0 true 1 5; S_ true 0 true 2 3]);
  (3835, [S_ false 0 true 0 4; S_ false 0 true 1 6; S_ false 0 true 2 2]);
  (3837, [S_ false 0 true 0 4; S_ false 0 true 1 6; S_ true 0 true 2 2]);
  (3839, [S_ false 0 true 0 4; S_ false 0 true 1 8]);
  (3841, [S_ false 0 true 0 4; S_ true 0 true 1 8]);
  (3843, [S_ false 0 true 0 4; S_ true 0 true 1 6; S_ false 0 true 2 2]);
  (3845, [S_ false 0 true 0 4; S_ true 0 true 1 6; S_ true 0 true 2 2]);
  (3847, [S_ false 0 true 0 4; S_ true 0 true 1 5; S_ false 0 true 2 3]);
  (3849, [S_ false 0 true 0 4; S_ true 0 true 1 5; S_ true 0 true 2 3]);
  (3851, [S_ false 0 true 0 4; S_ false 0 true 1 6; S_ true 1 true 2 2]);
  (3853, [S_ false 0 true 0 4; S_ false 0 true 1 7; S_ true 1 true 2 1]);
  (3855, [S_ false 0 true 0 4; S_ true 1 true 1 8]);
  (3857, [S_ false 0 true 0 4; S_ true 0 true 1 4; S_ true 0 true 2 4]);
  (3859, [S_ false 0 true 0 4; S_ true 0 true 1 6; S_ true 1 true 2 2]);
  (3861, [S_ false 0 true 0 4; S_ true 0 true 1 4; S_ true 0 true 2 2; S_ true 0 true 3 2]);
  (3863, [S_ false 0 true 0 4; S_ true 0 true 1 5; S_ true 1 true 2 3]);
  (3865, [S_ false 0 true 0 3; S_ false 1 true 0 7; S_ false 1 true 2 5]);
  (3867, [S_ false 0 true 0 4; S_ true 0 true 1 3; S_ false 0 true 2 3; S_ false 0 true 3 2]);
  (3869, [S_ false 0 true 0 4; S_ true 1 true 1 7; S_ false 0 true 2 1]);
  (3871, [S_ false 0 true 0 4; S_ true 0 true 1 3; S_ false 0 true 2 5]);
  (3873, [S_ false 0 true 0 4; S_ true 0 true 1 3; S_ true 0 true 2 5]);
  (3875, [S_ false 0 true 0 5; S_ false 1 true 1 5; S_ true 1 true 2 2]);
  (3877, [S_ false 0 true 0 4; S_ true 0 true 1 3; S_ true 0 true 2 3; S_ true 0 true 3 2]);
  (3879, [S_ false 0 true 0 3; S_ false 1 true 0 7; S_ true 1 true 2 5]);
  (3881, [S_ false 0 true 0 4; S_ true 0 true 1 3; S_ true 0 true 2 2; S_ true 0 true 3 3]);
  (3883, [S_ false 0 true 0 4; S_ false 0 true 1 4; S_ true 1 true 2 2; S_ false 0 true 3 2]);
  (3885, [S_ false 0 true 0 4; S_ true 1 true 1 6; S_ false 1 true 2 2]);
  (3887, [S_ false 0 true 0 4; S_ true 0 true 1 3; S_ true 1 true 2 5]);
  (3889, [S_ false 0 true 0 4; S_ true 0 true 1 2; S_ false 1 true 2 6]);
  (3891, [S_ true 0 true 0 1; S_ false 1 true 0 6; S_ false 1 true 2 4; S_ false 0 true 3 2]);
  (3893, [S_ true 0 true 0 1; S_ false 1 true 0 6; S_ false 1 true 2 4; S_ true 0 true 3 2]);
  (3895, [S_ false 0 true 0 4; S_ true 0 true 1 2; S_ false 0 true 2 3; S_ false 0 true 3 3]);
  (3897, [S_ false 0 true 0 4; S_ true 0 true 1 2; S_ false 0 true 2 3; S_ true 0 true 3 3]);
  (3899, [S_ false 0 true 0 4; S_ true 1 true 1 6; S_ false 0 true 2 2]);
  (3901, [S_ false 0 true 0 4; S_ true 1 true 1 6; S_ true 0 true 2 2]);
  (3903, [S_ false 0 true 0 4; S_ true 0 true 1 2; S_ false 0 true 2 6]);
  (3905, [S_ false 0 true 0 4; S_ true 0 true 1 2; S_ true 0 true 2 6]);
  (3907, [S_ false 0 true 0 5; S_ false 1 true 1 6; S_ true 0 true 2 1]);
  (3909, [S_ false 0 true 0 4; S_ true 0 true 1 2; S_ true 0 true 2 4; S_ true 0 true 3 2]);
  (3911, [S_ false 0 true 0 4; S_ true 0 true 1 2; S_ true 0 true 2 3; S_ false 0 true 3 3]);
  (3913, [S_ false 0 true 0 4; S_ true 0 true 1 2; S_ true 0 true 2 3; S_ true 0 true 3 3]);
  (3915, [S_ false 0 true 0 4; S_ true 1 true 1 6; S_ true 1 true 2 2]);
  (3917, [S_ true 0 true 0 1; S_ false 1 true 0 6; S_ true 1 true 2 4; S_ true 0 true 3 2]);
  (3919, [S_ false 0 true 0 4; S_ true 0 true 1 2; S_ true 1 true 2 6]);
  (3921, [S_ false 0 true 0 5; S_ false 0 true 1 3; S_ false 1 true 2 4]);
  (3923, [S_ false 0 true 0 5; S_ true 0 true 1 3; S_ false 1 true 2 3; S_ true 0 true 3 1]);
  (3925, [S_ true 0 true 0 2; S_ false 1 true 0 7; S_ false 1 true 2 4; S_ false 0 true 3 1]);
  (3927, [S_ true 0 true 0 5; S_ false 1 true 1 4; S_ false 1 true 2 3]);
  (3929, [S_ false 0 true 0 5; S_ false 0 true 1 4; S_ false 1 true 2 3]);
  (3931, [S_ true 0 true 0 2; S_ false 1 true 0 7; S_ false 1 true 2 5]);
  (3933, [S_ false 0 true 0 5; S_ false 0 true 1 5; S_ false 1 true 2 2]);
  (3935, [S_ false 0 true 0 5; S_ false 0 true 1 2; S_ false 0 true 2 5]);
  (3937, [S_ false 0 true 0 5; S_ false 1 true 1 7]);
  (3939, [S_ false 0 true 0 5; S_ true 0 true 1 6; S_ false 1 true 2 1]);
  (3941, [S_ true 0 true 0 2; S_ false 1 true 0 7; S_ true 1 true 2 5]);
  (3943, [S_ true 0 true 0 3; S_ false 1 true 0 8; S_ false 1 true 2 4]);
  (3945, [S_ false 0 true 0 4; S_ true 1 true 1 5; S_ false 1 true 2 3]);
  (3947, [S_ false 0 true 0 5; S_ false 0 true 1 3; S_ false 0 true 2 2; S_ false 0 true 3 2]);
  (3949, [S_ false 0 true 0 5; S_ false 0 true 1 3; S_ false 0 true 2 2; S_ true 0 true 3 2]);
  (3951, [S_ false 0 true 0 5; S_ false 0 true 1 3; S_ false 0 true 2 4]);
  (3953, [S_ false 0 true 0 5; S_ false 0 true 1 3; S_ true 0 true 2 4]);
  (3955, [S_ false 0 true 0 5; S_ false 0 true 1 3; S_ true 0 true 2 2; S_ false 0 true 3 2]);
  (3957, [S_ false 0 true 0 5; S_ false 0 true 1 3; S_ true 0 true 2 2; S_ true 0 true 3 2]);
  (3959, [S_ false 0 true 0 5; S_ false 0 true 1 4; S_ false 0 true 2 3]);
  (3961, [S_ false 0 true 0 5; S_ false 0 true 1 4; S_ true 0 true 2 3]);
  (3963, [S_ false 0 true 0 5; S_ false 0 true 1 5; S_ false 0 true 2 2]);
  (3965, [S_ false 0 true 0 5; S_ false 0 true 1 5; S_ true 0 true 2 2]);
  (3967, [S_ false 0 true 0 5; S_ false 0 true 1 7]);
  (3969, [S_ false 0 true 0 5; S_ true 0 true 1 7]);
  (3971, [S_ false 0 true 0 5; S_ true 0 true 1 5; S_ false 0 true 2 2]);
  (3973, [S_ false 0 true 0 5; S_ true 0 true 1 5; S_ true 0 true 2 2]);
  (3975, [S_ false 0 true 0 5; S_ true 0 true 1 4; S_ false 0 true 2 3]);
  (3977, [S_ false 0 true 0 5; S_ true 0 true 1 4; S_ true 0 true 2 3]);
  (3979, [S_ false 0 true 0 5; S_ true 0 true 1 3; S_ false 0 true 2 2; S_ false 0 true 3 2]);
  (3981, [S_ false 0 true 0 5; S_ true 0 true 1 3; S_ false 0 true 2 2; S_ true 0 true 3 2]);
  (3983, [S_ false 0 true 0 5; S_ true 0 true 1 3; S_ false 0 true 2 4]);
  (3985, [S_ false 0 true 0 5; S_ true 0 true 1 3; S_ true 0 true 2 4]);
  (3987, [S_ false 0 true 0 5; S_ true 0 true 1 3; S_ true 0 true 2 2; S_ false 0 true 3 2]);
  (3989, [S_ false 0 true 0 5; S_ true 0 true 1 3; S_ true 0 true 2 2; S_ true 0 true 3 2]);
  (3991, [S_ false 0 true 0 3; S_ false 1 true 0 8; S_ true 1 true 2 4]);
  (3993, [S_ true 0 true 0 5; S_ false 1 true 1 4; S_ true 1 true 2 3]);
  (3995, [S_ false 0 true 0 5; S_ false 0 true 1 5; S_ true 1 true 2 2]);
  (3997, [S_ true 0 true 0 1; S_ false 1 true 0 7; S_ false 1 true 2 5]);
  (3999, [S_ false 0 true 0 5; S_ true 1 true 1 7]);
  (4001, [S_ false 0 true 0 5; S_ true 0 true 1 2; S_ true 0 true 2 5]);
  (4003, [S_ true 0 true 0 1; S_ false 1 true 0 7; S_ true 1 true 2 5]);
  (4005, [S_ false 0 true 0 5; S_ true 0 true 1 2; S_ true 0 true 2 3; S_ true 0 true 3 2]);
  (4007, [S_ false 0 true 0 5; S_ true 0 true 1 4; S_ true 1 true 2 3]);
  (4009, [S_ false 0 true 0 5; S_ true 0 true 1 2; S_ true 0 true 2 2; S_ true 0 true 3 3]);
  (4011, [S_ true 0 true 0 2; S_ false 1 true 0 8; S_ false 1 true 2 4]);
  (4013, [S_ false 0 true 0 6; S_ false 0 true 1 2; S_ false 0 true 2 2; S_ true 0 true 3 2]);
  (4015, [S_ false 0 true 0 6; S_ false 0 true 1 2; S_ false 0 true 2 4]);
  (4017, [S_ false 0 true 0 6; S_ false 0 true 1 2; S_ true 0 true 2 4]);
  (4019, [S_ false 0 true 0 6; S_ false 0 true 1 2; S_ true 0 true 2 2; S_ false 0 true 3 2]);
  (4021, [S_ true 0 true 0 2; S_ false 1 true 0 8; S_ true 1 true 2 4]);
  (4023, [S_ false 0 true 0 6; S_ false 0 true 1 3; S_ false 0 true 2 3]);
  (4025, [S_ false 0 true 0 6; S_ false 0 true 1 3; S_ true 0 true 2 3]);
  (4027, [S_ false 0 true 0 6; S_ false 0 true 1 4; S_ false 0 true 2 2]);
  (4029, [S_ false 0 true 0 6; S_ false 0 true 1 4; S_ true 0 true 2 2]);
  (4031, [S_ false 0 true 0 6; S_ false 0 true 1 6]);
  (4033, [S_ false 0 true 0 6; S_ true 0 true 1 6]);
  (4035, [S_ false 0 true 0 6; S_ true 0 true 1 4; S_ false 0 true 2 2]);
  (4037, [S_ false 0 true 0 6; S_ true 0 true 1 4; S_ true 0 true 2 2]);
  (4039, [S_ false 0 true 0 6; S_ true 0 true 1 3; S_ false 0 true 2 3]);
  (4041, [S_ false 0 true 0 6; S_ true 0 true 1 3; S_ true 0 true 2 3]);
  (4043, [S_ false 0 true 0 6; S_ true 0 true 1 2; S_ false 0 true 2 2; S_ false 0 true 3 2]);
  (4045, [S_ true 0 true 0 1; S_ false 1 true 0 8; S_ false 1 true 2 4]);
  (4047, [S_ false 0 true 0 6; S_ true 0 true 1 2; S_ false 0 true 2 4]);
  (4049, [S_ false 0 true 0 6; S_ true 0 true 1 2; S_ true 0 true 2 4]);
  (4051, [S_ true 0 true 0 1; S_ false 1 true 0 8; S_ true 1 true 2 4]);
  (4053, [S_ false 0 true 0 6; S_ true 0 true 1 2; S_ true 0 true 2 2; S_ true 0 true 3 2]);
  (4055, [S_ false 0 true 0 7; S_ false 0 true 1 2; S_ false 0 true 2 3]);
  (4057, [S_ false 0 true 0 7; S_ false 0 true 1 2; S_ true 0 true 2 3]);
  (4059, [S_ false 0 true 0 7; S_ false 0 true 1 3; S_ false 0 true 2 2]);
  (4061, [S_ false 0 true 0 7; S_ false 0 true 1 3; S_ true 0 true 2 2]);
  (4063, [S_ false 0 true 0 7; S_ false 0 true 1 5]);
  (4065, [S_ false 0 true 0 7; S_ true 0 true 1 5]);
  (4067, [S_ false 0 true 0 7; S_ true 0 true 1 3; S_ false 0 true 2 2]);
  (4069, [S_ false 0 true 0 7; S_ true 0 true 1 3; S_ true 0 true 2 2]);
  (4071, [S_ false 0 true 0 7; S_ true 0 true 1 2; S_ false 0 true 2 3]);
  (4073, [S_ false 0 true 0 7; S_ true 0 true 1 2; S_ true 0 true 2 3]);
  (4075, [S_ false 0 true 0 8; S_ false 0 true 1 2; S_ false 0 true 2 2]);
  (4077, [S_ false 0 true 0 8; S_ false 0 true 1 2; S_ true 0 true 2 2]);
  (4079, [S_ false 0 true 0 8; S_ false 0 true 1 4]);
  (4081, [S_ false 0 true 0 8; S_ true 0 true 1 4]);
  (4083, [S_ false 0 true 0 8; S_ true 0 true 1 2; S_ false 0 true 2 2]);
  (4085, [S_ false 0 true 0 8; S_ true 0 true 1 2; S_ true 0 true 2 2]);
  (4087, [S_ false 0 true 0 9; S_ false 0 true 1 3]);
  (4089, [S_ false 0 true 0 9; S_ true 0 true 1 3]);
  (4091, [S_ false 0 true 0 10; S_ false 0 true 1 2]);
  (4093, [S_ false 0 true 0 10; S_ true 0 true 1 2]);
  (4095, [S_ false 0 true 0 12])].

(** assets/asc-12.yaml *)
Definition shipped_asc : asc_map :=
  asc_chunk_0 ++ asc_chunk_1 ++ asc_chunk_2 ++ asc_chunk_3 ++ asc_chunk_4 ++ asc_chunk_5 ++ asc_chunk_6 ++ asc_chunk_7.
