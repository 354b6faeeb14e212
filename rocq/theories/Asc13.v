(** Generated by tools/gen_asc13.py. Do not edit. Not part of the target: chains
    for the odd numbers between 2^12 and 2^13, checked in Opt13.v. *)
From Verif Require Import Base Params.

Local Notation S_ a b c d e := (mkAddShift a b%nat c d%nat e%nat) (only parsing).

Definition asc13_chunk_0 : asc_map := [
  (4097, [S_ true 0 true 0 12]);
  (4099, [S_ true 0 true 0 1; S_ true 1 true 0 12]);
  (4101, [S_ true 0 true 0 2; S_ true 1 true 0 12]);
  (4103, [S_ false 0 true 0 3; S_ true 1 true 0 12]);
  (4105, [S_ true 0 true 0 3; S_ true 1 true 0 12]);
  (4107, [S_ true 0 true 0 1; S_ true 1 true 0 3; S_ true 2 true 0 12]);
  (4109, [S_ true 0 true 0 1; S_ false 1 true 0 4; S_ true 2 true 0 12]);
  (4111, [S_ false 0 true 0 4; S_ true 1 true 0 12]);
  (4113, [S_ true 0 true 0 4; S_ true 1 true 0 12]);
  (4115, [S_ true 0 true 0 1; S_ true 1 true 0 4; S_ true 2 true 0 12]);
  (4117, [S_ true 0 true 0 1; S_ true 1 true 0 9; S_ false 1 true 2 3]);
  (4119, [S_ true 0 true 0 1; S_ true 1 true 0 9; S_ false 0 true 2 3]);
  (4121, [S_ true 0 true 0 1; S_ true 1 true 0 9; S_ true 0 true 2 3]);
  (4123, [S_ true 0 true 0 1; S_ true 1 true 0 9; S_ true 1 true 2 3]);
  (4125, [S_ true 0 true 0 1; S_ false 1 true 0 5; S_ true 2 true 0 12]);
  (4127, [S_ false 0 true 0 5; S_ true 1 true 0 12]);
  (4129, [S_ true 0 true 0 5; S_ true 1 true 0 12]);
  (4131, [S_ true 0 true 0 1; S_ true 1 true 0 5; S_ true 2 true 0 12]);
  (4133, [S_ true 0 true 0 2; S_ true 1 true 0 5; S_ true 2 true 0 12]);
  (4135, [S_ true 0 true 0 2; S_ true 1 true 0 9; S_ false 0 true 2 3]);
  (4137, [S_ true 0 true 0 2; S_ true 1 true 0 9; S_ true 0 true 2 3]);
  (4139, [S_ true 0 true 0 6; S_ false 0 true 1 2; S_ false 0 true 2 2; S_ false 0 true 3 2]);
  (4141, [S_ true 0 true 0 1; S_ true 1 true 0 8; S_ false 1 true 2 4]);
  (4143, [S_ true 0 true 0 1; S_ true 1 true 0 8; S_ false 0 true 2 4]);
  (4145, [S_ true 0 true 0 1; S_ true 1 true 0 8; S_ true 0 true 2 4]);
  (4147, [S_ true 0 true 0 1; S_ true 1 true 0 8; S_ true 1 true 2 4]);
  (4149, [S_ true 0 true 0 6; S_ false 0 true 1 2; S_ true 0 true 2 2; S_ true 0 true 3 2]);
  (4151, [S_ true 0 true 0 3; S_ true 0 true 0 6; S_ false 1 true 2 6]);
  (4153, [S_ false 0 true 0 3; S_ true 0 true 0 6; S_ false 1 true 2 6]);
  (4155, [S_ true 0 true 0 2; S_ true 0 true 0 6; S_ false 1 true 2 6]);
  (4157, [S_ true 0 true 0 1; S_ true 0 true 0 6; S_ false 1 true 2 6]);
  (4159, [S_ true 0 true 0 6; S_ false 0 true 1 6]);
  (4161, [S_ true 0 true 0 6; S_ true 1 true 0 12]);
  (4163, [S_ true 0 true 0 1; S_ true 0 true 0 6; S_ true 1 true 2 6]);
  (4165, [S_ true 0 true 0 2; S_ true 0 true 0 6; S_ true 1 true 2 6]);
  (4167, [S_ true 0 true 0 3; S_ true 1 true 0 9; S_ false 0 true 2 3]);
  (4169, [S_ true 0 true 0 3; S_ true 0 true 0 6; S_ true 1 true 2 6]);
  (4171, [S_ true 0 true 0 2; S_ true 1 true 0 8; S_ false 1 true 2 4]);
  (4173, [S_ true 0 true 0 6; S_ true 0 true 1 2; S_ false 0 true 2 2; S_ true 0 true 3 2]);
  (4175, [S_ true 0 true 0 2; S_ true 1 true 0 8; S_ false 0 true 2 4]);
  (4177, [S_ true 0 true 0 2; S_ true 1 true 0 8; S_ true 0 true 2 4]);
  (4179, [S_ true 0 true 0 6; S_ true 0 true 1 2; S_ true 0 true 2 2; S_ false 0 true 3 2]);
  (4181, [S_ true 0 true 0 2; S_ true 1 true 0 8; S_ true 1 true 2 4]);
  (4183, [S_ true 0 true 0 5; S_ true 1 true 0 3; S_ false 2 true 1 7]);
  (4185, [S_ true 0 true 0 3; S_ false 1 true 1 4; S_ false 2 true 2 5]);
  (4187, [S_ true 0 true 0 5; S_ true 1 true 0 2; S_ false 2 true 1 7]);
  (4189, [S_ true 0 true 0 1; S_ true 1 true 0 7; S_ false 1 true 2 5]);
  (4191, [S_ true 0 true 0 5; S_ false 1 true 1 7]);
  (4193, [S_ true 0 true 0 1; S_ true 1 true 0 7; S_ true 0 true 2 5]);
  (4195, [S_ true 0 true 0 1; S_ true 1 true 0 7; S_ true 1 true 2 5]);
  (4197, [S_ true 0 true 0 5; S_ false 0 true 1 2; S_ true 0 true 2 3; S_ true 0 true 3 2]);
  (4199, [S_ true 0 true 0 3; S_ false 1 true 0 8; S_ true 2 true 2 4]);
  (4201, [S_ false 0 true 0 3; S_ true 1 true 0 8; S_ false 1 true 2 4]);
  (4203, [S_ true 0 true 0 5; S_ false 0 true 1 3; S_ false 0 true 2 2; S_ false 0 true 3 2]);
  (4205, [S_ true 0 true 0 5; S_ false 0 true 1 3; S_ false 0 true 2 2; S_ true 0 true 3 2]);
  (4207, [S_ false 0 true 0 3; S_ true 1 true 0 8; S_ false 0 true 2 4]);
  (4209, [S_ false 0 true 0 3; S_ true 1 true 0 8; S_ true 0 true 2 4]);
  (4211, [S_ true 0 true 0 5; S_ false 0 true 1 3; S_ true 0 true 2 2; S_ false 0 true 3 2]);
  (4213, [S_ true 0 true 0 5; S_ false 0 true 1 3; S_ true 0 true 2 2; S_ true 0 true 3 2]);
  (4215, [S_ true 0 true 0 3; S_ true 0 true 0 5; S_ false 1 true 2 7]);
  (4217, [S_ false 0 true 0 3; S_ true 0 true 0 5; S_ false 1 true 2 7]);
  (4219, [S_ true 0 true 0 2; S_ true 0 true 0 5; S_ false 1 true 2 7]);
  (4221, [S_ true 0 true 0 1; S_ true 0 true 0 5; S_ false 1 true 2 7]);
  (4223, [S_ true 0 true 0 5; S_ false 0 true 1 7]);
  (4225, [S_ true 0 true 0 5; S_ true 0 true 1 7]);
  (4227, [S_ true 0 true 0 1; S_ true 0 true 0 5; S_ true 1 true 2 7]);
  (4229, [S_ true 0 true 0 2; S_ true 0 true 0 5; S_ true 1 true 2 7]);
  (4231, [S_ true 0 true 0 3; S_ true 1 true 0 8; S_ false 1 true 2 4]);
  (4233, [S_ true 0 true 0 3; S_ true 0 true 0 5; S_ true 1 true 2 7]);
  (4235, [S_ true 0 true 0 5; S_ true 0 true 1 3; S_ false 0 true 2 2; S_ false 0 true 3 2]);
  (4237, [S_ true 0 true 0 5; S_ true 0 true 1 3; S_ false 0 true 2 2; S_ true 0 true 3 2]);
  (4239, [S_ true 0 true 0 3; S_ true 1 true 0 8; S_ false 0 true 2 4]);
  (4241, [S_ true 0 true 0 3; S_ true 1 true 0 8; S_ true 0 true 2 4]);
  (4243, [S_ true 0 true 0 5; S_ true 0 true 1 3; S_ true 0 true 2 2; S_ false 0 true 3 2]);
  (4245, [S_ true 0 true 0 5; S_ true 0 true 1 3; S_ true 0 true 2 2; S_ true 0 true 3 2]);
  (4247, [S_ true 0 true 0 3; S_ true 1 true 0 7; S_ false 2 true 2 5]);
  (4249, [S_ true 0 true 0 3; S_ true 1 true 0 8; S_ true 1 true 2 4]);
  (4251, [S_ true 0 true 0 2; S_ true 1 true 0 7; S_ false 1 true 2 5]);
  (4253, [S_ true 0 true 0 5; S_ true 1 false 0 2; S_ true 2 true 1 7]);
  (4255, [S_ true 0 true 0 2; S_ true 1 true 0 7; S_ false 0 true 2 5]);
  (4257, [S_ true 0 true 0 5; S_ true 1 true 1 7]);
  (4259, [S_ true 0 true 0 5; S_ true 1 true 0 1; S_ true 2 true 1 7]);
  (4261, [S_ true 0 true 0 2; S_ true 1 true 0 7; S_ true 1 true 2 5]);
  (4263, [S_ true 0 true 0 5; S_ true 0 true 1 2; S_ true 0 true 2 2; S_ false 0 true 3 3]);
  (4265, [S_ true 0 true 0 5; S_ true 1 true 0 3; S_ true 2 true 1 7]);
  (4267, [S_ true 0 true 0 2; S_ false 1 true 0 8; S_ true 2 true 2 4]);
  (4269, [S_ true 0 true 0 4; S_ false 0 true 1 4; S_ false 1 true 2 2; S_ true 0 true 3 2]);
  (4271, [S_ true 0 true 0 4; S_ true 1 true 0 6; S_ false 2 true 1 8]);
  (4273, [S_ true 0 true 0 5; S_ true 1 true 0 4; S_ true 2 true 1 7]);
  (4275, [S_ true 0 true 0 4; S_ false 0 true 1 5; S_ false 1 true 2 1; S_ false 0 true 3 2]);
  (4277, [S_ true 0 true 0 4; S_ false 0 true 1 5; S_ false 1 true 2 1; S_ true 0 true 3 2]);
  (4279, [S_ true 0 true 0 4; S_ false 0 true 1 2; S_ false 0 true 2 3; S_ false 0 true 3 3]);
  (4281, [S_ true 0 true 0 4; S_ false 0 true 1 2; S_ false 0 true 2 3; S_ true 0 true 3 3]);
  (4283, [S_ true 0 true 0 4; S_ true 0 true 1 2; S_ false 2 true 1 8]);
  (4285, [S_ true 0 true 0 1; S_ true 1 true 0 6; S_ false 1 true 2 6]);
  (4287, [S_ true 0 true 0 1; S_ true 1 true 0 6; S_ false 0 true 2 6]);
  (4289, [S_ true 0 true 0 1; S_ true 1 true 0 6; S_ true 0 true 2 6]);
  (4291, [S_ true 0 true 0 1; S_ true 1 true 0 6; S_ true 1 true 2 6]);
  (4293, [S_ true 0 true 0 4; S_ false 0 true 1 2; S_ true 0 true 2 4; S_ true 0 true 3 2]);
  (4295, [S_ true 0 true 0 4; S_ false 0 true 1 2; S_ true 0 true 2 3; S_ false 0 true 3 3]);
  (4297, [S_ true 0 true 0 4; S_ false 0 true 1 2; S_ true 0 true 2 3; S_ true 0 true 3 3]);
  (4299, [S_ true 0 true 0 4; S_ true 0 true 1 4; S_ false 1 true 2 2; S_ false 0 true 3 2]);
  (4301, [S_ true 0 true 0 1; S_ false 1 true 0 8; S_ true 2 true 2 4]);
  (4303, [S_ true 0 true 0 4; S_ true 1 true 0 5; S_ false 2 true 1 8]);
  (4305, [S_ true 0 true 0 3; S_ false 0 true 1 5; S_ false 2 true 2 4]);
  (4307, [S_ true 0 true 0 5; S_ true 0 true 1 3; S_ true 1 true 2 3; S_ true 0 true 3 1]);
  (4309, [S_ true 0 true 0 4; S_ false 0 true 1 5; S_ false 1 true 2 2; S_ false 0 true 3 1]);
  (4311, [S_ true 0 true 0 3; S_ false 1 true 1 4; S_ false 1 true 2 5]);
  (4313, [S_ false 0 true 0 3; S_ true 1 true 0 7; S_ false 1 true 2 5]);
  (4315, [S_ true 0 true 0 4; S_ false 0 true 1 3; S_ false 0 true 2 3; S_ false 0 true 3 2]);
  (4317, [S_ true 0 true 0 4; S_ true 0 true 1 1; S_ false 2 true 1 8]);
  (4319, [S_ true 0 true 0 3; S_ false 1 true 1 4; S_ false 0 true 2 5]);
  (4321, [S_ true 0 true 0 3; S_ false 1 true 1 4; S_ true 0 true 2 5]);
  (4323, [S_ true 0 true 0 1; S_ true 1 true 0 7; S_ true 2 true 2 5]);
  (4325, [S_ true 0 true 0 4; S_ false 0 true 1 3; S_ true 0 true 2 3; S_ true 0 true 3 2]);
  (4327, [S_ false 0 true 0 3; S_ true 1 true 0 7; S_ true 1 true 2 5]);
  (4329, [S_ true 0 true 0 3; S_ false 1 true 1 4; S_ true 1 true 2 5]);
  (4331, [S_ true 0 true 0 4; S_ true 1 true 0 2; S_ false 2 true 1 8]);
  (4333, [S_ true 0 true 0 4; S_ true 1 true 0 1; S_ false 2 true 1 8]);
  (4335, [S_ true 0 true 0 4; S_ false 1 true 1 8]);
  (4337, [S_ true 0 true 0 4; S_ true 1 false 0 1; S_ false 2 true 1 8]);
  (4339, [S_ true 0 true 0 4; S_ true 1 false 0 2; S_ false 2 true 1 8]);
  (4341, [S_ true 0 true 0 4; S_ false 0 true 1 4; S_ true 0 true 2 2; S_ true 0 true 3 2]);
  (4343, [S_ true 0 true 0 3; S_ true 1 true 0 3; S_ false 1 true 2 8]);
  (4345, [S_ false 0 true 0 3; S_ true 0 true 0 4; S_ false 1 true 2 8]);
  (4347, [S_ true 0 true 0 2; S_ true 0 true 0 4; S_ false 1 true 2 8]);
  (4349, [S_ true 0 true 0 1; S_ true 0 true 0 4; S_ false 1 true 2 8]);
  (4351, [S_ true 0 true 0 4; S_ false 0 true 1 8]);
  (4353, [S_ true 0 true 0 4; S_ true 0 true 1 8]);
  (4355, [S_ true 0 true 0 1; S_ true 0 true 0 4; S_ true 1 true 2 8]);
  (4357, [S_ true 0 true 0 2; S_ true 0 true 0 4; S_ true 1 true 2 8]);
  (4359, [S_ false 0 true 0 3; S_ true 0 true 0 4; S_ true 1 true 2 8]);
  (4361, [S_ true 0 true 0 3; S_ true 1 true 0 3; S_ true 1 true 2 8]);
  (4363, [S_ true 0 true 0 4; S_ true 0 true 1 4; S_ false 0 true 2 2; S_ false 0 true 3 2]);
  (4365, [S_ true 0 true 0 4; S_ true 1 false 0 2; S_ true 2 true 1 8]);
  (4367, [S_ true 0 true 0 4; S_ true 1 false 0 1; S_ true 2 true 1 8]);
  (4369, [S_ true 0 true 0 4; S_ true 1 true 1 8]);
  (4371, [S_ true 0 true 0 4; S_ true 1 true 0 1; S_ true 2 true 1 8]);
  (4373, [S_ true 0 true 0 4; S_ true 1 true 0 2; S_ true 2 true 1 8]);
  (4375, [S_ true 0 true 0 3; S_ true 1 true 0 7; S_ false 1 true 2 5]);
  (4377, [S_ true 0 true 0 4; S_ true 1 true 0 3; S_ true 2 true 1 8]);
  (4379, [S_ true 0 true 0 4; S_ true 0 true 1 3; S_ false 0 true 2 3; S_ false 0 true 3 2]);
  (4381, [S_ true 0 true 0 4; S_ true 0 true 1 3; S_ false 0 true 2 3; S_ true 0 true 3 2]);
  (4383, [S_ true 0 true 0 3; S_ true 1 true 0 7; S_ false 0 true 2 5]);
  (4385, [S_ true 0 true 0 3; S_ true 1 true 0 7; S_ true 0 true 2 5]);
  (4387, [S_ true 0 true 0 4; S_ true 0 true 1 1; S_ true 2 true 1 8]);
  (4389, [S_ true 0 true 0 2; S_ true 1 true 0 7; S_ true 2 true 2 5]);
  (4391, [S_ true 0 true 0 4; S_ true 0 true 1 3; S_ true 0 true 2 2; S_ false 0 true 3 3]);
  (4393, [S_ true 0 true 0 3; S_ true 1 true 0 7; S_ true 1 true 2 5]);
  (4395, [S_ true 0 true 0 4; S_ true 0 true 1 5; S_ true 1 true 2 2; S_ true 0 true 3 1]);
  (4397, [S_ true 0 true 0 2; S_ false 1 true 1 4; S_ true 2 true 0 10; S_ true 0 true 3 2]);
  (4399, [S_ true 0 true 0 4; S_ false 1 true 0 6; S_ true 2 true 1 8]);
  (4401, [S_ true 0 true 0 4; S_ true 1 true 0 5; S_ true 2 true 1 8]);
  (4403, [S_ true 0 true 0 1; S_ true 1 true 0 8; S_ true 2 true 2 4]);
  (4405, [S_ true 0 true 0 4; S_ false 0 true 1 4; S_ true 1 true 2 2; S_ true 0 true 3 2]);
  (4407, [S_ true 0 true 0 4; S_ true 0 true 1 2; S_ false 0 true 2 3; S_ false 0 true 3 3]);
  (4409, [S_ true 0 true 0 4; S_ true 0 true 1 2; S_ false 0 true 2 3; S_ true 0 true 3 3]);
  (4411, [S_ true 0 true 0 2; S_ true 1 true 0 6; S_ false 1 true 2 6]);
  (4413, [S_ true 0 true 0 4; S_ true 0 true 1 2; S_ false 0 true 2 4; S_ true 0 true 3 2]);
  (4415, [S_ true 0 true 0 2; S_ true 1 true 0 6; S_ false 0 true 2 6]);
  (4417, [S_ true 0 true 0 2; S_ true 1 true 0 6; S_ true 0 true 2 6]);
  (4419, [S_ true 0 true 0 4; S_ false 0 true 1 2; S_ true 2 true 1 8]);
  (4421, [S_ true 0 true 0 2; S_ true 1 true 0 6; S_ true 1 true 2 6]);
  (4423, [S_ true 0 true 0 4; S_ true 0 true 1 2; S_ true 0 true 2 3; S_ false 0 true 3 3]);
  (4425, [S_ true 0 true 0 4; S_ true 0 true 1 2; S_ true 0 true 2 3; S_ true 0 true 3 3]);
  (4427, [S_ true 0 true 0 3; S_ false 1 true 1 5; S_ false 1 true 2 2; S_ false 0 true 3 2]);
  (4429, [S_ true 0 true 0 3; S_ false 1 true 1 5; S_ false 1 true 2 2; S_ true 0 true 3 2]);
  (4431, [S_ true 0 true 0 4; S_ true 0 true 1 2; S_ true 0 true 2 2; S_ false 0 true 3 4]);
  (4433, [S_ true 0 true 0 3; S_ false 0 true 1 4; S_ false 2 true 2 5]);
  (4435, [S_ true 0 true 0 4; S_ true 0 true 1 4; S_ true 1 true 2 2; S_ false 0 true 3 2]);
  (4437, [S_ true 0 true 0 2; S_ true 1 true 0 8; S_ true 2 true 2 4]);
  (4439, [S_ true 0 true 0 3; S_ true 0 true 1 2; S_ false 2 true 2 4; S_ false 0 true 3 3]);
  (4441, [S_ true 0 true 0 3; S_ true 0 true 1 2; S_ false 2 true 2 4; S_ true 0 true 3 3]);
  (4443, [S_ true 0 true 0 3; S_ false 0 true 1 2; S_ false 1 true 2 5; S_ false 0 true 3 2]);
  (4445, [S_ true 0 true 0 1; S_ true 1 true 0 5; S_ false 2 true 2 7]);
  (4447, [S_ true 0 true 0 5; S_ true 1 true 0 1; S_ false 1 true 2 7]);
  (4449, [S_ false 0 true 0 5; S_ true 1 true 0 2; S_ false 1 true 2 7]);
  (4451, [S_ true 0 true 0 4; S_ true 0 true 1 2; S_ true 1 true 2 5; S_ true 0 true 3 1]);
  (4453, [S_ true 0 true 0 4; S_ true 0 true 1 3; S_ true 1 true 2 3; S_ true 0 true 3 2]);
  (4455, [S_ true 0 true 0 3; S_ true 1 true 1 4; S_ false 2 true 1 9]);
  (4457, [S_ true 0 true 0 3; S_ false 1 true 1 5; S_ false 0 true 2 1; S_ true 0 true 3 3]);
  (4459, [S_ true 0 true 0 3; S_ false 1 true 1 5; S_ false 0 true 2 2; S_ false 0 true 3 2]);
  (4461, [S_ true 0 true 0 3; S_ false 1 true 1 5; S_ false 0 true 2 2; S_ true 0 true 3 2]);
  (4463, [S_ true 0 true 0 3; S_ true 0 true 1 4; S_ false 2 true 1 9]);
  (4465, [S_ true 0 true 0 3; S_ false 0 true 1 4; S_ false 2 true 1 9]);
  (4467, [S_ true 0 true 0 3; S_ false 1 true 1 5; S_ true 0 true 2 2; S_ false 0 true 3 2]);
  (4469, [S_ true 0 true 0 3; S_ false 1 true 1 5; S_ true 0 true 2 2; S_ true 0 true 3 2]);
  (4471, [S_ true 0 true 0 3; S_ true 1 true 0 7; S_ false 2 true 1 9]);
  (4473, [S_ true 0 true 0 2; S_ false 0 true 1 7; S_ false 2 true 2 3]);
  (4475, [S_ true 0 true 0 2; S_ false 1 true 1 3; S_ false 1 true 2 7]);
  (4477, [S_ true 0 true 0 1; S_ true 1 true 0 5; S_ false 1 true 2 7]);
  (4479, [S_ true 0 true 0 1; S_ true 1 true 0 5; S_ false 0 true 2 7]);
  (4481, [S_ true 0 true 0 1; S_ true 1 true 0 5; S_ true 0 true 2 7]);
  (4483, [S_ true 0 true 0 1; S_ true 1 true 0 5; S_ true 1 true 2 7]);
  (4485, [S_ true 0 true 0 2; S_ true 1 true 0 6; S_ true 2 true 2 6]);
  (4487, [S_ true 0 true 0 2; S_ true 0 true 1 7; S_ false 2 true 2 3]);
  (4489, [S_ true 0 true 0 3; S_ false 1 true 0 7; S_ false 2 true 1 9]);
  (4491, [S_ true 0 true 0 4; S_ true 1 true 1 5; S_ true 0 true 2 1; S_ false 0 true 3 2]);
  (4493, [S_ true 0 true 0 4; S_ true 1 true 1 5; S_ true 0 true 2 1; S_ true 0 true 3 2]);
  (4495, [S_ true 0 true 0 3; S_ true 0 true 1 4; S_ false 2 true 2 5]);
  (4497, [S_ true 0 true 0 4; S_ true 1 true 0 7; S_ true 2 true 1 8]);
  (4499, [S_ true 0 true 0 3; S_ false 0 true 1 2; S_ true 1 true 2 6; S_ true 0 true 3 1]);
  (4501, [S_ true 0 true 0 3; S_ false 1 true 1 5; S_ true 1 true 2 2; S_ true 0 true 3 2]);
  (4503, [S_ true 0 true 0 3; S_ false 0 true 1 4; S_ false 1 true 2 2; S_ false 0 true 3 3]);
  (4505, [S_ true 0 true 0 3; S_ true 1 true 0 8; S_ true 2 true 2 4]);
  (4507, [S_ true 0 true 0 3; S_ false 0 true 1 3; S_ false 1 true 2 4; S_ false 0 true 3 2]);
  (4509, [S_ true 0 true 0 3; S_ false 0 true 1 3; S_ false 1 true 2 4; S_ true 0 true 3 2]);
  (4511, [S_ false 0 true 0 5; S_ true 1 true 0 2; S_ true 1 true 2 7]);
  (4513, [S_ true 0 true 0 5; S_ true 1 true 0 1; S_ true 1 true 2 7]);
  (4515, [S_ true 0 true 0 1; S_ true 1 true 0 5; S_ true 2 true 2 7]);
  (4517, [S_ true 0 true 0 3; S_ false 0 true 1 2; S_ true 1 true 2 5; S_ true 0 true 3 2]);
  (4519, [S_ true 0 true 0 3; S_ false 0 true 1 5; S_ false 1 true 2 1; S_ false 0 true 3 3]);
  (4521, [S_ true 0 true 0 3; S_ true 1 true 0 7; S_ true 2 true 2 5]);
  (4523, [S_ true 0 true 0 4; S_ true 1 true 1 5; S_ true 1 true 2 2; S_ true 0 true 3 1]);
  (4525, [S_ true 0 true 0 3; S_ false 0 true 1 3; S_ false 1 true 2 5; S_ false 0 true 3 1]);
  (4527, [S_ true 0 true 0 3; S_ false 1 true 0 9; S_ true 2 true 2 3]);
  (4529, [S_ true 0 true 0 3; S_ false 0 true 1 3; S_ false 0 true 2 2; S_ true 0 true 3 4]);
  (4531, [S_ true 0 true 0 3; S_ false 1 true 1 6; S_ false 0 true 2 1; S_ false 0 true 3 2]);
  (4533, [S_ true 0 true 0 3; S_ false 1 true 1 6; S_ false 0 true 2 1; S_ true 0 true 3 2]);
  (4535, [S_ true 0 true 0 3; S_ true 1 true 0 6; S_ false 2 true 1 9]);
  (4537, [S_ true 0 true 0 3; S_ false 0 true 1 3; S_ false 2 true 1 9]);
  (4539, [S_ true 0 true 0 3; S_ false 0 true 1 3; S_ false 0 true 2 4; S_ false 0 true 3 2]);
  (4541, [S_ true 0 true 0 3; S_ false 0 true 1 3; S_ false 0 true 2 4; S_ true 0 true 3 2]);
  (4543, [S_ true 0 true 0 3; S_ true 0 true 0 6; S_ false 2 true 1 9]);
  (4545, [S_ true 0 true 0 3; S_ false 0 true 0 6; S_ false 2 true 1 9]);
  (4547, [S_ true 0 true 0 3; S_ false 0 true 1 3; S_ true 0 true 2 4; S_ false 0 true 3 2]);
  (4549, [S_ true 0 true 0 3; S_ false 0 true 1 3; S_ true 0 true 2 4; S_ true 0 true 3 2]);
  (4551, [S_ false 0 true 0 3; S_ true 1 true 0 6; S_ true 1 true 2 6]);
  (4553, [S_ true 0 true 0 3; S_ false 1 true 0 6; S_ false 2 true 1 9]);
  (4555, [S_ true 0 true 0 3; S_ false 0 true 1 5; S_ false 1 true 2 2; S_ false 0 true 3 2]);
  (4557, [S_ true 0 true 0 3; S_ false 0 true 1 4; S_ false 1 true 2 4; S_ false 0 true 3 1]);
  (4559, [S_ true 0 true 0 3; S_ false 0 true 1 3; S_ true 0 true 2 2; S_ false 0 true 3 4]);
  (4561, [S_ false 0 true 0 4; S_ true 1 true 0 7; S_ false 1 true 2 5]);
  (4563, [S_ true 0 true 0 2; S_ false 1 true 0 9; S_ true 2 true 2 3]);
  (4565, [S_ true 0 true 0 3; S_ false 0 true 1 6; S_ false 1 true 2 1; S_ true 0 true 3 2]);
  (4567, [S_ true 0 true 0 3; S_ true 1 true 0 5; S_ false 2 true 1 9]);
  (4569, [S_ true 0 true 0 3; S_ false 0 true 1 4; S_ false 0 true 2 2; S_ true 0 true 3 3]);
  (4571, [S_ true 0 true 0 3; S_ true 0 true 1 2; S_ false 2 true 1 9]);
  (4573, [S_ true 0 true 0 3; S_ false 0 true 1 2; S_ false 2 true 1 9]);
  (4575, [S_ true 0 true 0 3; S_ true 0 true 0 5; S_ false 2 true 1 9]);
  (4577, [S_ true 0 true 0 3; S_ false 0 true 0 5; S_ false 2 true 1 9]);
  (4579, [S_ true 0 true 0 3; S_ false 0 true 1 4; S_ true 0 true 2 3; S_ false 0 true 3 2]);
  (4581, [S_ true 0 true 0 1; S_ false 1 true 0 9; S_ true 2 true 2 3]);
  (4583, [S_ true 0 true 0 3; S_ true 1 true 0 4; S_ false 2 true 1 9]);
  (4585, [S_ true 0 true 0 3; S_ false 1 true 0 5; S_ false 2 true 1 9]);
  (4587, [S_ true 0 true 0 3; S_ false 0 true 1 5; S_ false 0 true 2 2; S_ false 0 true 3 2]);
  (4589, [S_ true 0 true 0 3; S_ true 0 true 1 1; S_ false 2 true 1 9]);
  (4591, [S_ true 0 true 0 3; S_ true 1 true 0 3; S_ false 2 true 1 9]);
  (4593, [S_ true 0 true 0 3; S_ false 0 true 0 4; S_ false 2 true 1 9]);
  (4595, [S_ true 0 true 0 3; S_ true 1 true 0 2; S_ false 2 true 1 9]);
  (4597, [S_ true 0 true 0 3; S_ true 1 true 0 1; S_ false 2 true 1 9]);
  (4599, [S_ true 0 true 0 3; S_ false 1 true 1 9]);
  (4601, [S_ true 0 true 0 3; S_ true 1 false 0 1; S_ false 2 true 1 9]);
  (4603, [S_ true 0 true 0 2; S_ true 1 true 0 2; S_ false 1 true 2 9]);
  (4605, [S_ true 0 true 0 1; S_ true 0 true 0 3; S_ false 1 true 2 9]);
  (4607, [S_ true 0 true 0 3; S_ false 0 true 1 9])].

Definition asc13_chunk_1 : asc_map := [
  (4609, [S_ true 0 true 0 3; S_ true 0 true 1 9]);
  (4611, [S_ true 0 true 0 1; S_ true 0 true 0 3; S_ true 1 true 2 9]);
  (4613, [S_ true 0 true 0 2; S_ true 1 true 0 2; S_ true 1 true 2 9]);
  (4615, [S_ true 0 true 0 3; S_ true 1 false 0 1; S_ true 2 true 1 9]);
  (4617, [S_ true 0 true 0 3; S_ true 1 true 1 9]);
  (4619, [S_ true 0 true 0 3; S_ true 1 true 0 1; S_ true 2 true 1 9]);
  (4621, [S_ true 0 true 0 3; S_ true 1 true 0 2; S_ true 2 true 1 9]);
  (4623, [S_ true 0 true 0 3; S_ false 0 true 0 4; S_ true 2 true 1 9]);
  (4625, [S_ true 0 true 0 3; S_ true 1 true 0 3; S_ true 2 true 1 9]);
  (4627, [S_ true 0 true 0 3; S_ true 0 true 1 1; S_ true 2 true 1 9]);
  (4629, [S_ true 0 true 0 3; S_ true 0 true 1 5; S_ true 0 true 2 2; S_ true 0 true 3 2]);
  (4631, [S_ true 0 true 0 3; S_ false 1 true 0 5; S_ true 2 true 1 9]);
  (4633, [S_ true 0 true 0 3; S_ true 1 true 0 4; S_ true 2 true 1 9]);
  (4635, [S_ true 0 true 0 1; S_ true 1 true 0 9; S_ true 2 true 2 3]);
  (4637, [S_ true 0 true 0 3; S_ true 0 true 1 4; S_ false 0 true 2 3; S_ true 0 true 3 2]);
  (4639, [S_ true 0 true 0 3; S_ false 0 true 0 5; S_ true 2 true 1 9]);
  (4641, [S_ true 0 true 0 3; S_ true 0 true 0 5; S_ true 2 true 1 9]);
  (4643, [S_ true 0 true 0 3; S_ false 0 true 1 2; S_ true 2 true 1 9]);
  (4645, [S_ true 0 true 0 3; S_ true 0 true 1 2; S_ true 2 true 1 9]);
  (4647, [S_ true 0 true 0 3; S_ true 0 true 1 4; S_ true 0 true 2 2; S_ false 0 true 3 3]);
  (4649, [S_ true 0 true 0 3; S_ true 1 true 0 5; S_ true 2 true 1 9]);
  (4651, [S_ true 0 true 0 3; S_ true 0 true 1 6; S_ true 1 true 2 1; S_ false 0 true 3 2]);
  (4653, [S_ true 0 true 0 2; S_ true 1 true 0 9; S_ true 2 true 2 3]);
  (4655, [S_ true 0 true 0 3; S_ true 0 true 1 3; S_ false 0 true 2 2; S_ false 0 true 3 4]);
  (4657, [S_ true 0 true 0 4; S_ true 1 true 0 7; S_ true 1 true 2 5]);
  (4659, [S_ true 0 true 0 3; S_ true 0 true 1 4; S_ true 1 true 2 4; S_ true 0 true 3 1]);
  (4661, [S_ true 0 true 0 3; S_ true 0 true 1 5; S_ true 1 true 2 2; S_ true 0 true 3 2]);
  (4663, [S_ true 0 true 0 3; S_ true 1 true 0 6; S_ false 1 true 2 6]);
  (4665, [S_ true 0 true 0 3; S_ true 0 true 1 3; S_ false 0 true 2 3; S_ true 0 true 3 3]);
  (4667, [S_ true 0 true 0 3; S_ true 0 true 1 3; S_ false 0 true 2 4; S_ false 0 true 3 2]);
  (4669, [S_ true 0 true 0 3; S_ true 0 true 1 3; S_ false 0 true 2 4; S_ true 0 true 3 2]);
  (4671, [S_ true 0 true 0 3; S_ false 0 true 0 6; S_ true 2 true 1 9]);
  (4673, [S_ true 0 true 0 3; S_ true 0 true 0 6; S_ true 2 true 1 9]);
  (4675, [S_ true 0 true 0 3; S_ true 0 true 1 3; S_ true 0 true 2 4; S_ false 0 true 3 2]);
  (4677, [S_ true 0 true 0 3; S_ true 0 true 1 3; S_ true 0 true 2 4; S_ true 0 true 3 2]);
  (4679, [S_ true 0 true 0 3; S_ false 0 true 1 3; S_ true 2 true 1 9]);
  (4681, [S_ true 0 true 0 3; S_ true 1 true 0 6; S_ true 2 true 1 9]);
  (4683, [S_ true 0 true 0 3; S_ true 1 true 1 6; S_ true 0 true 2 1; S_ false 0 true 3 2]);
  (4685, [S_ true 0 true 0 3; S_ true 1 true 1 6; S_ true 0 true 2 1; S_ true 0 true 3 2]);
  (4687, [S_ true 0 true 0 3; S_ true 0 true 1 3; S_ true 0 true 2 2; S_ false 0 true 3 4]);
  (4689, [S_ true 0 true 0 3; S_ true 1 true 0 9; S_ true 2 true 2 3]);
  (4691, [S_ true 0 true 0 3; S_ true 0 true 1 3; S_ true 1 true 2 5; S_ true 0 true 3 1]);
  (4693, [S_ true 0 true 0 2; S_ true 1 true 1 4; S_ true 0 true 0 3; S_ true 2 true 3 9]);
  (4695, [S_ true 0 true 0 3; S_ true 0 true 1 5; S_ true 1 true 2 1; S_ false 0 true 3 3]);
  (4697, [S_ true 0 true 0 3; S_ true 0 true 1 5; S_ true 1 true 2 1; S_ true 0 true 3 3]);
  (4699, [S_ true 0 true 0 2; S_ true 1 true 0 5; S_ false 2 true 2 7]);
  (4701, [S_ true 0 true 0 3; S_ true 0 true 1 2; S_ false 1 true 2 5; S_ true 0 true 3 2]);
  (4703, [S_ true 0 true 0 5; S_ true 1 true 0 2; S_ false 1 true 2 7]);
  (4705, [S_ true 0 true 0 3; S_ true 0 true 1 2; S_ false 0 true 2 2; S_ true 0 true 3 5]);
  (4707, [S_ true 0 true 0 3; S_ true 0 true 1 3; S_ true 1 true 2 4; S_ false 0 true 3 2]);
  (4709, [S_ true 0 true 0 3; S_ true 0 true 1 3; S_ true 1 true 2 4; S_ true 0 true 3 2]);
  (4711, [S_ true 0 true 0 3; S_ true 0 true 1 4; S_ true 1 true 2 2; S_ false 0 true 3 3]);
  (4713, [S_ true 0 true 0 3; S_ true 0 true 1 4; S_ true 1 true 2 2; S_ true 0 true 3 3]);
  (4715, [S_ true 0 true 0 3; S_ true 1 true 1 5; S_ false 1 true 2 2; S_ false 0 true 3 2]);
  (4717, [S_ true 0 true 0 3; S_ true 0 true 1 2; S_ false 1 true 2 6; S_ false 0 true 3 1]);
  (4719, [S_ true 0 true 0 3; S_ false 0 true 1 4; S_ true 2 true 2 5]);
  (4721, [S_ true 0 true 0 3; S_ true 0 true 1 2; S_ false 0 true 2 3; S_ true 0 true 3 4]);
  (4723, [S_ true 0 true 0 3; S_ true 0 true 1 2; S_ false 0 true 2 5; S_ false 1 true 3 2]);
  (4725, [S_ true 0 true 0 2; S_ false 1 true 1 4; S_ false 2 true 2 6]);
  (4727, [S_ true 0 true 0 3; S_ false 1 true 0 7; S_ true 2 true 1 9]);
  (4729, [S_ true 0 true 0 3; S_ true 0 true 1 2; S_ false 0 true 2 4; S_ true 0 true 3 3]);
  (4731, [S_ true 0 true 0 2; S_ true 1 true 0 5; S_ false 1 true 2 7]);
  (4733, [S_ true 0 true 0 3; S_ true 0 true 1 2; S_ false 0 true 2 5; S_ true 0 true 3 2]);
  (4735, [S_ true 0 true 0 2; S_ true 1 true 0 5; S_ false 0 true 2 7]);
  (4737, [S_ true 0 true 0 2; S_ true 1 true 0 5; S_ true 0 true 2 7]);
  (4739, [S_ true 0 true 0 3; S_ true 0 true 1 2; S_ true 0 true 2 5; S_ false 0 true 3 2]);
  (4741, [S_ true 0 true 0 2; S_ true 1 true 0 5; S_ true 1 true 2 7]);
  (4743, [S_ true 0 true 0 3; S_ true 1 true 1 4; S_ false 2 true 2 5]);
  (4745, [S_ true 0 true 0 3; S_ true 1 true 0 6; S_ true 2 true 2 6]);
  (4747, [S_ true 0 true 0 3; S_ true 1 true 1 5; S_ false 0 true 2 2; S_ false 0 true 3 2]);
  (4749, [S_ true 0 true 0 3; S_ true 1 true 1 5; S_ false 0 true 2 2; S_ true 0 true 3 2]);
  (4751, [S_ true 0 true 0 3; S_ false 0 true 1 4; S_ true 2 true 1 9]);
  (4753, [S_ true 0 true 0 3; S_ true 0 true 1 4; S_ true 2 true 1 9]);
  (4755, [S_ true 0 true 0 3; S_ true 1 true 1 5; S_ true 0 true 2 2; S_ false 0 true 3 2]);
  (4757, [S_ true 0 true 0 3; S_ true 1 true 1 5; S_ true 0 true 2 2; S_ true 0 true 3 2]);
  (4759, [S_ true 0 true 0 3; S_ true 1 true 1 5; S_ true 0 true 2 1; S_ false 0 true 3 3]);
  (4761, [S_ true 0 true 0 3; S_ true 1 true 1 4; S_ true 2 true 1 9]);
  (4763, [S_ true 0 true 0 3; S_ true 1 true 1 5; S_ true 0 true 2 3; S_ true 1 true 3 1]);
  (4765, [S_ true 0 true 0 2; S_ false 0 true 1 5; S_ false 2 true 2 4; S_ false 1 true 3 1]);
  (4767, [S_ true 0 true 0 3; S_ true 0 true 1 2; S_ true 0 true 2 2; S_ false 0 true 3 5]);
  (4769, [S_ true 0 true 0 5; S_ true 1 true 0 2; S_ true 1 true 2 7]);
  (4771, [S_ true 0 true 0 3; S_ true 0 true 1 2; S_ true 1 true 2 5; S_ false 0 true 3 2]);
  (4773, [S_ true 0 true 0 2; S_ true 1 true 0 5; S_ true 2 true 2 7]);
  (4775, [S_ true 0 true 0 2; S_ true 1 true 1 4; S_ true 2 true 0 9; S_ false 0 true 3 3]);
  (4777, [S_ true 0 true 0 2; S_ true 1 true 1 4; S_ true 2 true 0 9; S_ true 0 true 3 3]);
  (4779, [S_ true 0 true 0 2; S_ false 1 true 1 4; S_ false 1 true 2 4; S_ false 0 true 3 2]);
  (4781, [S_ true 0 true 0 2; S_ false 1 true 1 4; S_ false 1 true 2 4; S_ true 0 true 3 2]);
  (4783, [S_ true 0 true 0 2; S_ false 1 true 1 4; S_ false 0 true 2 2; S_ false 0 true 3 4]);
  (4785, [S_ true 0 true 0 2; S_ false 0 true 1 6; S_ false 2 true 2 4]);
  (4787, [S_ true 0 true 0 3; S_ true 1 true 1 5; S_ true 1 true 2 2; S_ false 0 true 3 2]);
  (4789, [S_ true 0 true 0 2; S_ false 1 true 1 4; S_ false 1 true 2 5; S_ false 0 true 3 1]);
  (4791, [S_ true 0 true 0 2; S_ false 1 true 1 4; S_ false 0 true 2 3; S_ false 0 true 3 3]);
  (4793, [S_ true 0 true 0 2; S_ false 1 true 1 4; S_ false 0 true 2 3; S_ true 0 true 3 3]);
  (4795, [S_ true 0 true 0 2; S_ false 1 true 1 4; S_ false 1 true 2 6]);
  (4797, [S_ true 0 true 0 2; S_ false 1 true 1 4; S_ false 0 true 2 4; S_ true 0 true 3 2]);
  (4799, [S_ true 0 true 0 2; S_ false 1 true 1 4; S_ false 0 true 2 6]);
  (4801, [S_ true 0 true 0 2; S_ false 1 true 1 4; S_ true 0 true 2 6]);
  (4803, [S_ true 0 true 0 2; S_ false 1 true 1 4; S_ true 0 true 2 4; S_ false 0 true 3 2]);
  (4805, [S_ true 0 true 0 2; S_ false 1 true 1 4; S_ true 1 true 2 6]);
  (4807, [S_ true 0 true 0 2; S_ false 1 true 1 4; S_ true 0 true 2 3; S_ false 0 true 3 3]);
  (4809, [S_ true 0 true 0 2; S_ false 1 true 1 4; S_ true 0 true 2 3; S_ true 0 true 3 3]);
  (4811, [S_ true 0 true 0 2; S_ false 1 true 1 4; S_ true 1 true 2 5; S_ true 0 true 3 1]);
  (4813, [S_ true 0 true 0 2; S_ false 1 true 1 4; S_ true 0 true 2 3; S_ true 1 true 3 3]);
  (4815, [S_ true 0 true 0 2; S_ true 0 true 1 6; S_ false 2 true 2 4]);
  (4817, [S_ true 0 true 0 2; S_ false 1 true 1 4; S_ true 0 true 2 2; S_ true 0 true 3 4]);
  (4819, [S_ true 0 true 0 2; S_ false 1 true 1 4; S_ true 1 true 2 4; S_ false 0 true 3 2]);
  (4821, [S_ true 0 true 0 2; S_ false 1 true 1 4; S_ true 1 true 2 4; S_ true 0 true 3 2]);
  (4823, [S_ true 0 true 0 2; S_ false 0 true 1 2; S_ false 1 true 2 5; S_ false 0 true 3 3]);
  (4825, [S_ true 0 true 0 2; S_ false 0 true 1 2; S_ false 1 true 2 5; S_ true 0 true 3 3]);
  (4827, [S_ true 0 true 0 2; S_ false 0 true 1 2; S_ false 2 true 2 7; S_ true 0 true 3 1]);
  (4829, [S_ true 0 true 0 2; S_ true 0 true 1 5; S_ false 2 true 2 4; S_ false 0 true 3 1]);
  (4831, [S_ true 0 true 0 2; S_ false 0 true 1 2; S_ false 0 true 2 3; S_ false 0 true 3 5]);
  (4833, [S_ true 0 true 0 2; S_ false 0 true 1 2; S_ false 0 true 2 3; S_ true 0 true 3 5]);
  (4835, [S_ false 0 true 0 4; S_ false 1 true 1 7; S_ true 2 true 0 9; S_ true 0 true 3 1]);
  (4837, [S_ true 0 true 0 2; S_ false 0 true 1 2; S_ false 0 true 2 3; S_ true 1 true 3 5]);
  (4839, [S_ true 0 true 0 2; S_ false 1 true 1 4; S_ true 1 true 2 3; S_ false 0 true 3 3]);
  (4841, [S_ true 0 true 0 2; S_ false 1 true 1 4; S_ true 1 true 2 3; S_ true 0 true 3 3]);
  (4843, [S_ true 0 true 0 2; S_ false 0 true 1 2; S_ false 1 true 2 6; S_ false 0 true 3 2]);
  (4845, [S_ true 0 true 0 1; S_ true 1 true 0 4; S_ false 2 true 2 8]);
  (4847, [S_ true 0 true 0 4; S_ true 1 true 0 1; S_ false 1 true 2 8]);
  (4849, [S_ false 0 true 0 4; S_ true 1 true 0 2; S_ false 1 true 2 8]);
  (4851, [S_ true 0 true 0 1; S_ false 1 true 1 6; S_ true 2 true 0 10; S_ false 0 true 3 2]);
  (4853, [S_ true 0 true 0 2; S_ false 0 true 1 2; S_ false 1 true 2 7; S_ false 0 true 3 1]);
  (4855, [S_ true 0 true 0 3; S_ false 1 true 0 8; S_ true 2 true 1 9]);
  (4857, [S_ true 0 true 0 2; S_ false 0 true 1 2; S_ false 0 true 2 5; S_ true 0 true 3 3]);
  (4859, [S_ true 0 true 0 2; S_ true 1 true 0 8; S_ false 2 true 1 10]);
  (4861, [S_ true 0 true 0 1; S_ true 1 true 0 4; S_ false 1 true 2 8]);
  (4863, [S_ true 0 true 0 1; S_ true 1 true 0 4; S_ false 0 true 2 8]);
  (4865, [S_ true 0 true 0 1; S_ true 1 true 0 4; S_ true 0 true 2 8]);
  (4867, [S_ true 0 true 0 1; S_ true 1 true 0 4; S_ true 1 true 2 8]);
  (4869, [S_ true 0 true 0 2; S_ false 1 true 0 8; S_ false 2 true 1 10]);
  (4871, [S_ true 0 true 0 2; S_ false 0 true 1 2; S_ true 0 true 2 5; S_ false 0 true 3 3]);
  (4873, [S_ true 0 true 0 3; S_ true 1 true 0 8; S_ true 2 true 1 9]);
  (4875, [S_ true 0 true 0 2; S_ false 1 true 1 4; S_ true 2 true 2 6]);
  (4877, [S_ true 0 true 0 3; S_ true 1 true 1 4; S_ false 1 true 2 4; S_ false 0 true 3 1]);
  (4879, [S_ true 0 true 0 3; S_ false 0 true 1 5; S_ true 2 true 2 4]);
  (4881, [S_ true 0 true 0 4; S_ true 1 true 0 1; S_ true 1 true 2 8]);
  (4883, [S_ true 0 true 0 1; S_ true 1 true 0 4; S_ true 2 true 2 8]);
  (4885, [S_ true 0 true 0 2; S_ false 0 true 1 2; S_ true 1 true 2 6; S_ true 0 true 3 2]);
  (4887, [S_ true 0 true 0 3; S_ true 1 true 1 4; S_ false 1 true 2 5]);
  (4889, [S_ true 0 true 0 3; S_ true 1 true 1 4; S_ false 0 true 2 2; S_ true 0 true 3 3]);
  (4891, [S_ true 0 true 0 3; S_ true 1 true 1 4; S_ false 0 true 2 3; S_ false 0 true 3 2]);
  (4893, [S_ true 0 true 0 3; S_ true 1 true 1 4; S_ false 0 true 2 3; S_ true 0 true 3 2]);
  (4895, [S_ true 0 true 0 3; S_ true 1 true 1 4; S_ false 0 true 2 5]);
  (4897, [S_ true 0 true 0 3; S_ true 1 true 1 4; S_ true 0 true 2 5]);
  (4899, [S_ true 0 true 0 3; S_ true 1 true 1 4; S_ true 0 true 2 3; S_ false 0 true 3 2]);
  (4901, [S_ true 0 true 0 3; S_ true 1 true 1 4; S_ true 0 true 2 3; S_ true 0 true 3 2]);
  (4903, [S_ true 0 true 0 3; S_ true 1 true 1 4; S_ true 0 true 2 2; S_ false 0 true 3 3]);
  (4905, [S_ true 0 true 0 3; S_ true 1 true 1 4; S_ true 1 true 2 5]);
  (4907, [S_ true 0 true 0 2; S_ false 0 true 1 2; S_ true 2 true 2 7; S_ true 1 true 3 1]);
  (4909, [S_ true 0 true 0 3; S_ true 1 true 1 4; S_ true 0 true 2 3; S_ true 1 true 3 2]);
  (4911, [S_ true 0 true 0 3; S_ true 1 true 1 4; S_ true 0 true 2 1; S_ false 0 true 3 4]);
  (4913, [S_ true 0 true 0 3; S_ true 0 true 1 5; S_ true 2 true 2 4]);
  (4915, [S_ true 0 true 0 3; S_ true 1 true 1 4; S_ true 1 true 2 4; S_ true 0 true 3 1]);
  (4917, [S_ true 0 true 0 3; S_ true 0 true 1 5; S_ true 0 true 2 2; S_ true 2 true 3 2]);
  (4919, [S_ true 0 true 0 2; S_ true 0 true 1 3; S_ false 2 true 2 4; S_ false 0 true 3 3]);
  (4921, [S_ true 0 true 0 2; S_ true 0 true 1 3; S_ false 2 true 2 4; S_ true 0 true 3 3]);
  (4923, [S_ false 0 true 0 4; S_ true 1 true 1 6; S_ true 2 true 0 8; S_ false 0 true 3 2]);
  (4925, [S_ false 0 true 0 4; S_ true 1 true 1 6; S_ true 2 true 0 8; S_ true 0 true 3 2]);
  (4927, [S_ true 0 true 0 2; S_ false 0 true 1 2; S_ true 0 true 2 2; S_ false 0 true 3 6]);
  (4929, [S_ true 0 true 0 2; S_ false 0 true 1 5; S_ false 2 true 2 5]);
  (4931, [S_ true 0 true 0 4; S_ true 1 true 1 6; S_ true 2 true 0 7; S_ false 0 true 3 2]);
  (4933, [S_ true 0 true 0 4; S_ true 1 true 1 6; S_ true 2 true 0 7; S_ true 0 true 3 2]);
  (4935, [S_ true 0 true 0 3; S_ true 1 true 1 6; S_ true 2 true 0 5; S_ false 0 true 3 3]);
  (4937, [S_ true 0 true 0 3; S_ true 1 true 1 6; S_ true 2 true 0 5; S_ true 0 true 3 3]);
  (4939, [S_ true 0 true 0 2; S_ false 1 true 1 5; S_ false 1 true 2 3; S_ false 0 true 3 2]);
  (4941, [S_ true 0 true 0 2; S_ false 1 true 1 5; S_ false 1 true 2 3; S_ true 0 true 3 2]);
  (4943, [S_ true 0 true 0 2; S_ false 1 true 1 5; S_ false 0 true 2 1; S_ false 0 true 3 4]);
  (4945, [S_ true 0 true 0 2; S_ false 1 true 1 5; S_ false 0 true 2 1; S_ true 0 true 3 4]);
  (4947, [S_ true 0 true 0 2; S_ false 1 true 1 5; S_ false 0 true 2 2; S_ false 1 true 3 3]);
  (4949, [S_ true 0 true 0 2; S_ false 1 true 1 5; S_ false 1 true 2 4; S_ false 0 true 3 1]);
  (4951, [S_ true 0 true 0 2; S_ false 1 true 1 5; S_ false 0 true 2 2; S_ false 0 true 3 3]);
  (4953, [S_ true 0 true 0 2; S_ false 0 true 1 3; S_ false 2 true 2 7]);
  (4955, [S_ true 0 true 0 2; S_ true 1 true 1 5; S_ false 2 true 1 10]);
  (4957, [S_ true 0 true 0 2; S_ false 1 true 1 5; S_ false 0 true 2 3; S_ true 0 true 3 2]);
  (4959, [S_ true 0 true 0 2; S_ true 0 true 1 5; S_ false 2 true 1 10]);
  (4961, [S_ true 0 true 0 2; S_ false 0 true 1 5; S_ false 2 true 1 10]);
  (4963, [S_ true 0 true 0 2; S_ false 1 true 1 5; S_ true 0 true 2 3; S_ false 0 true 3 2]);
  (4965, [S_ true 0 true 0 2; S_ false 1 true 1 5; S_ false 2 true 1 10]);
  (4967, [S_ true 0 true 0 2; S_ false 1 true 1 5; S_ true 0 true 2 2; S_ false 0 true 3 3]);
  (4969, [S_ true 0 true 0 2; S_ false 1 true 1 5; S_ true 0 true 2 2; S_ true 0 true 3 3]);
  (4971, [S_ true 0 true 0 2; S_ false 0 true 1 3; S_ false 1 true 2 5; S_ false 0 true 3 2]);
  (4973, [S_ true 0 true 0 2; S_ false 0 true 1 3; S_ false 1 true 2 5; S_ true 0 true 3 2]);
  (4975, [S_ true 0 true 0 2; S_ false 0 true 1 3; S_ false 0 true 2 3; S_ false 0 true 3 4]);
  (4977, [S_ true 0 true 0 2; S_ false 0 true 1 4; S_ false 2 true 2 6]);
  (4979, [S_ true 0 true 0 2; S_ false 1 true 1 5; S_ true 1 true 2 3; S_ false 0 true 3 2]);
  (4981, [S_ true 0 true 0 2; S_ false 0 true 1 3; S_ false 1 true 2 6; S_ false 0 true 3 1]);
  (4983, [S_ true 0 true 0 2; S_ false 0 true 1 3; S_ false 0 true 2 4; S_ false 0 true 3 3]);
  (4985, [S_ false 0 true 0 3; S_ true 1 true 0 5; S_ false 1 true 2 7]);
  (4987, [S_ true 0 true 0 2; S_ true 1 true 0 7; S_ false 2 true 1 10]);
  (4989, [S_ true 0 true 0 2; S_ false 0 true 1 3; S_ false 0 true 2 5; S_ true 0 true 3 2]);
  (4991, [S_ true 0 true 0 2; S_ true 0 true 0 7; S_ false 2 true 1 10]);
  (4993, [S_ true 0 true 0 2; S_ false 0 true 0 7; S_ false 2 true 1 10]);
  (4995, [S_ true 0 true 0 2; S_ false 0 true 1 3; S_ true 0 true 2 5; S_ false 0 true 3 2]);
  (4997, [S_ true 0 true 0 2; S_ false 1 true 0 7; S_ false 2 true 1 10]);
  (4999, [S_ false 0 true 0 3; S_ true 1 true 0 5; S_ true 1 true 2 7]);
  (5001, [S_ true 0 true 0 2; S_ false 0 true 1 3; S_ true 0 true 2 4; S_ true 0 true 3 3]);
  (5003, [S_ true 0 true 0 2; S_ false 0 true 1 3; S_ true 1 true 2 6; S_ true 0 true 3 1]);
  (5005, [S_ false 0 true 0 3; S_ true 1 true 1 6; S_ true 2 true 0 11; S_ false 0 true 3 1]);
  (5007, [S_ true 0 true 0 2; S_ false 0 true 1 3; S_ true 0 true 2 3; S_ false 0 true 3 4]);
  (5009, [S_ true 0 true 0 2; S_ false 0 true 1 3; S_ true 0 true 2 3; S_ true 0 true 3 4]);
  (5011, [S_ true 0 true 0 2; S_ false 0 true 1 3; S_ true 1 true 2 5; S_ false 0 true 3 2]);
  (5013, [S_ true 0 true 0 2; S_ false 0 true 1 3; S_ true 1 true 2 5; S_ true 0 true 3 2]);
  (5015, [S_ true 0 true 0 2; S_ false 0 true 1 4; S_ false 1 true 2 3; S_ false 0 true 3 3]);
  (5017, [S_ true 0 true 0 2; S_ false 0 true 1 4; S_ false 1 true 2 3; S_ true 0 true 3 3]);
  (5019, [S_ false 0 true 0 3; S_ true 1 true 1 5; S_ true 2 true 0 10; S_ false 0 true 3 2]);
  (5021, [S_ true 0 true 0 2; S_ true 0 true 1 4; S_ false 2 true 2 5; S_ false 0 true 3 1]);
  (5023, [S_ false 0 true 0 5; S_ true 1 true 0 3; S_ true 1 true 2 7]);
  (5025, [S_ true 0 true 0 2; S_ false 0 true 1 3; S_ true 0 true 2 2; S_ true 0 true 3 5]);
  (5027, [S_ false 0 true 0 4; S_ false 1 true 1 5; S_ true 2 true 0 11; S_ true 0 true 3 1]);
  (5029, [S_ true 0 true 0 2; S_ false 1 true 1 6; S_ false 1 true 2 3; S_ false 0 true 3 1]);
  (5031, [S_ true 0 true 0 2; S_ false 0 true 1 3; S_ true 2 true 2 7]);
  (5033, [S_ true 0 true 0 2; S_ false 1 true 1 6; S_ false 0 true 2 1; S_ true 0 true 3 3]);
  (5035, [S_ true 0 true 0 2; S_ true 1 true 1 4; S_ false 2 true 1 10]);
  (5037, [S_ true 0 true 0 2; S_ false 1 true 1 6; S_ false 0 true 2 2; S_ true 0 true 3 2]);
  (5039, [S_ true 0 true 0 2; S_ true 0 true 1 4; S_ false 2 true 1 10]);
  (5041, [S_ true 0 true 0 2; S_ false 0 true 1 4; S_ false 2 true 1 10]);
  (5043, [S_ true 0 true 0 2; S_ false 1 true 1 6; S_ true 0 true 2 2; S_ false 0 true 3 2]);
  (5045, [S_ true 0 true 0 2; S_ false 1 true 1 4; S_ false 2 true 1 10]);
  (5047, [S_ true 0 true 0 2; S_ false 0 true 1 4; S_ false 0 true 2 3; S_ false 0 true 3 3]);
  (5049, [S_ true 0 true 0 3; S_ true 1 true 1 4; S_ true 2 true 2 5]);
  (5051, [S_ true 0 true 0 2; S_ true 1 true 0 6; S_ false 2 true 1 10]);
  (5053, [S_ true 0 true 0 2; S_ false 0 true 1 4; S_ false 0 true 2 4; S_ true 0 true 3 2]);
  (5055, [S_ true 0 true 0 2; S_ true 0 true 0 6; S_ false 2 true 1 10]);
  (5057, [S_ true 0 true 0 2; S_ false 0 true 0 6; S_ false 2 true 1 10]);
  (5059, [S_ true 0 true 0 2; S_ false 0 true 1 4; S_ true 0 true 2 4; S_ false 0 true 3 2]);
  (5061, [S_ true 0 true 0 2; S_ false 1 true 0 6; S_ false 2 true 1 10]);
  (5063, [S_ true 0 true 0 2; S_ false 0 true 1 4; S_ true 0 true 2 3; S_ false 0 true 3 3]);
  (5065, [S_ true 0 true 0 2; S_ false 0 true 1 4; S_ true 0 true 2 3; S_ true 0 true 3 3]);
  (5067, [S_ true 0 true 0 2; S_ false 0 true 1 4; S_ true 1 true 2 5; S_ true 0 true 3 1]);
  (5069, [S_ true 0 true 0 2; S_ false 0 true 1 5; S_ false 1 true 2 3; S_ true 0 true 3 2]);
  (5071, [S_ false 0 true 0 4; S_ true 1 true 0 6; S_ true 1 true 2 6]);
  (5073, [S_ true 0 true 0 2; S_ false 0 true 1 4; S_ true 0 true 2 2; S_ true 0 true 3 4]);
  (5075, [S_ true 0 true 0 2; S_ true 1 true 1 3; S_ false 2 true 1 10]);
  (5077, [S_ true 0 true 0 2; S_ false 1 true 1 7; S_ false 0 true 2 1; S_ true 0 true 3 2]);
  (5079, [S_ true 0 true 0 2; S_ true 0 true 1 3; S_ false 2 true 1 10]);
  (5081, [S_ true 0 true 0 2; S_ false 0 true 1 3; S_ false 2 true 1 10]);
  (5083, [S_ true 0 true 0 2; S_ true 1 true 0 5; S_ false 2 true 1 10]);
  (5085, [S_ true 0 true 0 2; S_ false 1 true 1 3; S_ false 2 true 1 10]);
  (5087, [S_ true 0 true 0 2; S_ true 0 true 0 5; S_ false 2 true 1 10]);
  (5089, [S_ true 0 true 0 2; S_ false 0 true 0 5; S_ false 2 true 1 10]);
  (5091, [S_ true 0 true 0 2; S_ false 0 true 1 5; S_ true 0 true 2 3; S_ false 0 true 3 2]);
  (5093, [S_ true 0 true 0 2; S_ false 1 true 0 5; S_ false 2 true 1 10]);
  (5095, [S_ true 0 true 0 2; S_ false 1 true 0 10; S_ true 2 true 2 2]);
  (5097, [S_ true 0 true 0 2; S_ false 0 true 1 5; S_ true 0 true 2 2; S_ true 0 true 3 3]);
  (5099, [S_ true 0 true 0 2; S_ true 1 true 0 4; S_ false 2 true 1 10]);
  (5101, [S_ true 0 true 0 2; S_ false 0 true 1 2; S_ false 2 true 1 10]);
  (5103, [S_ true 0 true 0 2; S_ true 0 true 0 4; S_ false 2 true 1 10]);
  (5105, [S_ true 0 true 0 1; S_ false 1 true 0 10; S_ true 2 true 2 2]);
  (5107, [S_ true 0 true 0 2; S_ true 1 true 0 3; S_ false 2 true 1 10]);
  (5109, [S_ true 0 true 0 2; S_ false 1 true 0 4; S_ false 2 true 1 10]);
  (5111, [S_ true 0 true 0 2; S_ true 1 true 0 2; S_ false 2 true 1 10]);
  (5113, [S_ true 0 true 0 2; S_ true 1 true 0 1; S_ false 2 true 1 10]);
  (5115, [S_ true 0 true 0 2; S_ false 1 true 1 10]);
  (5117, [S_ true 0 true 0 1; S_ true 1 true 0 1; S_ false 1 true 2 10]);
  (5119, [S_ true 0 true 0 2; S_ false 0 true 1 10])].

Definition asc13_chunk_2 : asc_map := [
  (5121, [S_ true 0 true 0 2; S_ true 0 true 1 10]);
  (5123, [S_ true 0 true 0 1; S_ true 1 true 0 1; S_ true 1 true 2 10]);
  (5125, [S_ true 0 true 0 2; S_ true 1 true 1 10]);
  (5127, [S_ true 0 true 0 2; S_ true 1 true 0 1; S_ true 2 true 1 10]);
  (5129, [S_ true 0 true 0 2; S_ true 1 true 0 2; S_ true 2 true 1 10]);
  (5131, [S_ true 0 true 0 2; S_ false 1 true 0 4; S_ true 2 true 1 10]);
  (5133, [S_ true 0 true 0 2; S_ true 1 true 0 3; S_ true 2 true 1 10]);
  (5135, [S_ true 0 true 0 1; S_ true 1 true 0 10; S_ true 2 true 2 2]);
  (5137, [S_ true 0 true 0 2; S_ true 0 true 0 4; S_ true 2 true 1 10]);
  (5139, [S_ true 0 true 0 2; S_ false 0 true 1 2; S_ true 2 true 1 10]);
  (5141, [S_ true 0 true 0 2; S_ true 1 true 0 4; S_ true 2 true 1 10]);
  (5143, [S_ true 0 true 0 2; S_ true 0 true 1 5; S_ false 0 true 2 2; S_ false 0 true 3 3]);
  (5145, [S_ true 0 true 0 2; S_ true 1 true 0 10; S_ true 2 true 2 2]);
  (5147, [S_ true 0 true 0 2; S_ false 1 true 0 5; S_ true 2 true 1 10]);
  (5149, [S_ true 0 true 0 2; S_ true 0 true 1 5; S_ false 0 true 2 3; S_ true 0 true 3 2]);
  (5151, [S_ true 0 true 0 2; S_ false 0 true 0 5; S_ true 2 true 1 10]);
  (5153, [S_ true 0 true 0 2; S_ true 0 true 0 5; S_ true 2 true 1 10]);
  (5155, [S_ true 0 true 0 2; S_ false 1 true 1 3; S_ true 2 true 1 10]);
  (5157, [S_ true 0 true 0 2; S_ true 1 true 0 5; S_ true 2 true 1 10]);
  (5159, [S_ true 0 true 0 2; S_ false 0 true 1 3; S_ true 2 true 1 10]);
  (5161, [S_ true 0 true 0 2; S_ true 0 true 1 3; S_ true 2 true 1 10]);
  (5163, [S_ true 0 true 0 2; S_ true 1 true 1 7; S_ true 0 true 2 1; S_ false 0 true 3 2]);
  (5165, [S_ true 0 true 0 2; S_ true 1 true 1 3; S_ true 2 true 1 10]);
  (5167, [S_ true 0 true 0 4; S_ true 1 true 0 6; S_ false 1 true 2 6]);
  (5169, [S_ true 0 true 0 2; S_ true 0 true 1 4; S_ false 0 true 2 2; S_ true 0 true 3 4]);
  (5171, [S_ true 0 true 0 2; S_ true 0 true 1 5; S_ true 1 true 2 3; S_ false 0 true 3 2]);
  (5173, [S_ true 0 true 0 2; S_ true 0 true 1 4; S_ false 1 true 2 5; S_ false 0 true 3 1]);
  (5175, [S_ true 0 true 0 3; S_ true 1 true 1 3; S_ false 1 true 2 6]);
  (5177, [S_ true 0 true 0 2; S_ true 0 true 1 4; S_ false 0 true 2 3; S_ true 0 true 3 3]);
  (5179, [S_ true 0 true 0 2; S_ false 1 true 0 6; S_ true 2 true 1 10]);
  (5181, [S_ true 0 true 0 2; S_ true 0 true 1 4; S_ false 0 true 2 4; S_ true 0 true 3 2]);
  (5183, [S_ true 0 true 0 2; S_ false 0 true 0 6; S_ true 2 true 1 10]);
  (5185, [S_ true 0 true 0 2; S_ true 0 true 0 6; S_ true 2 true 1 10]);
  (5187, [S_ true 0 true 0 2; S_ true 0 true 1 4; S_ true 0 true 2 4; S_ false 0 true 3 2]);
  (5189, [S_ true 0 true 0 2; S_ true 1 true 0 6; S_ true 2 true 1 10]);
  (5191, [S_ true 0 true 0 2; S_ true 0 true 1 4; S_ true 0 true 2 3; S_ false 0 true 3 3]);
  (5193, [S_ true 0 true 0 3; S_ true 1 true 1 3; S_ true 1 true 2 6]);
  (5195, [S_ true 0 true 0 2; S_ false 1 true 1 4; S_ true 2 true 1 10]);
  (5197, [S_ true 0 true 0 2; S_ true 1 true 1 6; S_ false 0 true 2 2; S_ true 0 true 3 2]);
  (5199, [S_ true 0 true 0 2; S_ false 0 true 1 4; S_ true 2 true 1 10]);
  (5201, [S_ true 0 true 0 2; S_ true 0 true 1 4; S_ true 2 true 1 10]);
  (5203, [S_ true 0 true 0 2; S_ true 1 true 1 6; S_ true 0 true 2 2; S_ false 0 true 3 2]);
  (5205, [S_ true 0 true 0 2; S_ true 1 true 1 4; S_ true 2 true 1 10]);
  (5207, [S_ true 0 true 0 2; S_ true 0 true 1 3; S_ false 2 true 2 7]);
  (5209, [S_ true 0 true 0 2; S_ true 1 true 1 6; S_ true 0 true 2 1; S_ true 0 true 3 3]);
  (5211, [S_ true 0 true 0 2; S_ true 1 true 1 6; S_ true 1 true 2 3; S_ true 0 true 3 1]);
  (5213, [S_ true 0 true 0 2; S_ false 0 true 1 4; S_ true 2 true 2 5; S_ false 0 true 3 1]);
  (5215, [S_ true 0 true 0 5; S_ true 1 true 0 3; S_ false 1 true 2 7]);
  (5217, [S_ true 0 true 0 2; S_ true 0 true 1 3; S_ false 0 true 2 2; S_ true 0 true 3 5]);
  (5219, [S_ true 0 true 0 4; S_ true 1 true 1 5; S_ true 2 true 0 11; S_ true 0 true 3 1]);
  (5221, [S_ true 0 true 0 2; S_ true 0 true 1 3; S_ false 0 true 2 2; S_ true 1 true 3 5]);
  (5223, [S_ true 0 true 0 2; S_ true 0 true 1 4; S_ true 1 true 2 3; S_ false 0 true 3 3]);
  (5225, [S_ true 0 true 0 2; S_ true 0 true 1 4; S_ true 1 true 2 3; S_ true 0 true 3 3]);
  (5227, [S_ true 0 true 0 2; S_ true 0 true 1 3; S_ false 1 true 2 5; S_ false 0 true 3 2]);
  (5229, [S_ true 0 true 0 2; S_ true 0 true 1 3; S_ false 1 true 2 5; S_ true 0 true 3 2]);
  (5231, [S_ true 0 true 0 2; S_ true 0 true 1 3; S_ false 0 true 2 3; S_ false 0 true 3 4]);
  (5233, [S_ true 0 true 0 2; S_ true 0 true 1 3; S_ false 0 true 2 3; S_ true 0 true 3 4]);
  (5235, [S_ true 0 true 0 2; S_ true 0 true 1 3; S_ false 0 true 2 4; S_ false 1 true 3 3]);
  (5237, [S_ true 0 true 0 2; S_ true 0 true 1 3; S_ false 1 true 2 6; S_ false 0 true 3 1]);
  (5239, [S_ true 0 true 0 3; S_ true 1 true 0 5; S_ false 1 true 2 7]);
  (5241, [S_ true 0 true 0 2; S_ true 0 true 1 3; S_ false 0 true 2 4; S_ true 0 true 3 3]);
  (5243, [S_ true 0 true 0 2; S_ false 1 true 0 7; S_ true 2 true 1 10]);
  (5245, [S_ true 0 true 0 2; S_ true 0 true 1 3; S_ false 0 true 2 5; S_ true 0 true 3 2]);
  (5247, [S_ true 0 true 0 2; S_ false 0 true 0 7; S_ true 2 true 1 10]);
  (5249, [S_ true 0 true 0 2; S_ true 0 true 0 7; S_ true 2 true 1 10]);
  (5251, [S_ true 0 true 0 2; S_ true 0 true 1 3; S_ true 0 true 2 5; S_ false 0 true 3 2]);
  (5253, [S_ true 0 true 0 2; S_ true 1 true 0 7; S_ true 2 true 1 10]);
  (5255, [S_ true 0 true 0 2; S_ true 0 true 1 3; S_ true 0 true 2 4; S_ false 0 true 3 3]);
  (5257, [S_ true 0 true 0 3; S_ true 1 true 0 5; S_ true 1 true 2 7]);
  (5259, [S_ true 0 true 0 2; S_ true 0 true 1 3; S_ true 1 true 2 6; S_ true 0 true 3 1]);
  (5261, [S_ true 0 true 0 2; S_ true 1 true 1 5; S_ false 1 true 2 3; S_ true 0 true 3 2]);
  (5263, [S_ true 0 true 0 2; S_ true 0 true 1 3; S_ true 0 true 2 3; S_ false 0 true 3 4]);
  (5265, [S_ true 0 true 0 2; S_ true 0 true 1 4; S_ true 2 true 2 6]);
  (5267, [S_ true 0 true 0 2; S_ true 0 true 1 3; S_ true 1 true 2 5; S_ false 0 true 3 2]);
  (5269, [S_ true 0 true 0 2; S_ true 0 true 1 3; S_ true 1 true 2 5; S_ true 0 true 3 2]);
  (5271, [S_ true 0 true 0 2; S_ true 1 true 1 5; S_ false 0 true 2 2; S_ false 0 true 3 3]);
  (5273, [S_ true 0 true 0 2; S_ true 1 true 1 5; S_ false 0 true 2 2; S_ true 0 true 3 3]);
  (5275, [S_ true 0 true 0 2; S_ true 1 true 1 5; S_ false 1 true 2 5]);
  (5277, [S_ true 0 true 0 2; S_ true 1 true 1 5; S_ false 0 true 2 3; S_ true 0 true 3 2]);
  (5279, [S_ true 0 true 0 2; S_ false 0 true 1 5; S_ true 2 true 1 10]);
  (5281, [S_ true 0 true 0 2; S_ true 0 true 1 5; S_ true 2 true 1 10]);
  (5283, [S_ true 0 true 0 2; S_ true 1 true 1 5; S_ true 0 true 2 3; S_ false 0 true 3 2]);
  (5285, [S_ true 0 true 0 2; S_ true 1 true 1 5; S_ true 2 true 1 10]);
  (5287, [S_ true 0 true 0 2; S_ true 1 true 1 5; S_ true 0 true 2 2; S_ false 0 true 3 3]);
  (5289, [S_ true 0 true 0 2; S_ true 0 true 1 3; S_ true 2 true 2 7]);
  (5291, [S_ true 0 true 0 2; S_ true 1 true 1 5; S_ true 1 true 2 4; S_ true 0 true 3 1]);
  (5293, [S_ true 0 true 0 2; S_ true 0 true 1 2; S_ false 2 true 2 6; S_ true 0 true 3 2]);
  (5295, [S_ true 0 true 0 2; S_ true 1 true 1 5; S_ true 0 true 2 1; S_ false 0 true 3 4]);
  (5297, [S_ true 0 true 0 2; S_ true 1 true 1 5; S_ true 0 true 2 1; S_ true 0 true 3 4]);
  (5299, [S_ true 0 true 0 2; S_ true 1 true 1 5; S_ true 1 true 2 3; S_ false 0 true 3 2]);
  (5301, [S_ true 0 true 0 2; S_ true 1 true 1 5; S_ true 1 true 2 3; S_ true 0 true 3 2]);
  (5303, [S_ true 0 true 0 2; S_ false 0 true 1 3; S_ true 2 true 2 4; S_ false 0 true 3 3]);
  (5305, [S_ true 0 true 0 2; S_ false 0 true 1 3; S_ true 2 true 2 4; S_ true 0 true 3 3]);
  (5307, [S_ true 0 true 0 4; S_ false 1 true 1 6; S_ true 2 true 0 8; S_ false 0 true 3 2]);
  (5309, [S_ true 0 true 0 4; S_ false 1 true 1 6; S_ true 2 true 0 8; S_ true 0 true 3 2]);
  (5311, [S_ true 0 true 0 2; S_ true 0 true 1 2; S_ false 0 true 2 2; S_ false 0 true 3 6]);
  (5313, [S_ true 0 true 0 2; S_ true 0 true 1 5; S_ true 2 true 2 5]);
  (5315, [S_ true 0 true 0 5; S_ true 1 true 1 6; S_ true 2 true 0 9; S_ true 0 true 3 1]);
  (5317, [S_ true 0 true 0 1; S_ false 0 true 1 5; S_ false 2 true 2 3; S_ false 1 true 3 3]);
  (5319, [S_ true 0 true 0 1; S_ false 0 true 1 5; S_ false 2 true 2 3; S_ false 0 true 3 3]);
  (5321, [S_ true 0 true 0 1; S_ false 0 true 1 5; S_ false 2 true 2 3; S_ true 0 true 3 3]);
  (5323, [S_ true 0 true 0 1; S_ false 0 true 1 5; S_ false 2 true 2 3; S_ true 1 true 3 3]);
  (5325, [S_ true 0 true 0 2; S_ true 0 true 1 3; S_ true 2 true 2 6; S_ false 1 true 3 1]);
  (5327, [S_ true 0 true 0 2; S_ true 0 true 1 3; S_ true 1 true 2 3; S_ false 0 true 3 4]);
  (5329, [S_ true 0 true 0 2; S_ true 0 true 1 3; S_ true 1 true 2 3; S_ true 0 true 3 4]);
  (5331, [S_ true 0 true 0 2; S_ true 0 true 1 3; S_ true 2 true 2 6; S_ true 0 true 3 1]);
  (5333, [S_ true 0 true 0 2; S_ true 0 true 1 2; S_ false 2 true 2 7; S_ false 0 true 3 1]);
  (5335, [S_ true 0 true 0 2; S_ true 0 true 1 2; S_ false 1 true 2 5; S_ false 0 true 3 3]);
  (5337, [S_ true 0 true 0 2; S_ true 0 true 1 2; S_ false 1 true 2 5; S_ true 0 true 3 3]);
  (5339, [S_ true 0 true 0 2; S_ true 0 true 1 2; S_ false 0 true 2 3; S_ false 1 true 3 5]);
  (5341, [S_ true 0 true 0 4; S_ false 1 true 1 7; S_ true 2 true 0 9; S_ false 0 true 3 1]);
  (5343, [S_ true 0 true 0 2; S_ true 0 true 1 2; S_ false 0 true 2 3; S_ false 0 true 3 5]);
  (5345, [S_ true 0 true 0 2; S_ true 0 true 1 2; S_ false 0 true 2 3; S_ true 0 true 3 5]);
  (5347, [S_ true 0 true 0 1; S_ false 0 true 1 6; S_ false 2 true 2 3; S_ false 0 true 3 2]);
  (5349, [S_ true 0 true 0 1; S_ false 0 true 1 6; S_ false 2 true 2 3; S_ true 0 true 3 2]);
  (5351, [S_ false 0 true 0 3; S_ false 0 true 1 5; S_ true 2 true 2 1; S_ false 0 true 3 3]);
  (5353, [S_ false 0 true 0 3; S_ false 0 true 1 5; S_ true 2 true 2 1; S_ true 0 true 3 3]);
  (5355, [S_ true 0 true 0 1; S_ false 1 true 1 3; S_ false 2 true 2 8]);
  (5357, [S_ true 0 true 0 2; S_ true 0 true 1 2; S_ false 1 true 2 6; S_ true 0 true 3 2]);
  (5359, [S_ true 0 true 0 4; S_ true 1 true 0 2; S_ false 1 true 2 8]);
  (5361, [S_ true 0 true 0 2; S_ true 0 true 1 2; S_ false 0 true 2 4; S_ true 0 true 3 4]);
  (5363, [S_ true 0 true 0 1; S_ false 0 true 1 7; S_ false 2 true 2 3; S_ true 0 true 3 1]);
  (5365, [S_ true 0 true 0 2; S_ true 0 true 1 2; S_ false 1 true 2 7; S_ false 0 true 3 1]);
  (5367, [S_ true 0 true 0 2; S_ true 0 true 1 2; S_ false 0 true 2 5; S_ false 0 true 3 3]);
  (5369, [S_ true 0 true 0 1; S_ false 0 true 1 8; S_ false 2 true 2 3]);
  (5371, [S_ true 0 true 0 2; S_ true 1 true 0 4; S_ false 1 true 2 8]);
  (5373, [S_ true 0 true 0 1; S_ false 1 true 1 3; S_ false 1 true 2 8]);
  (5375, [S_ true 0 true 0 1; S_ false 1 true 1 3; S_ false 0 true 2 8]);
  (5377, [S_ true 0 true 0 1; S_ false 1 true 1 3; S_ true 0 true 2 8]);
  (5379, [S_ true 0 true 0 1; S_ false 1 true 1 3; S_ true 1 true 2 8]);
  (5381, [S_ true 0 true 0 2; S_ true 1 true 0 4; S_ true 1 true 2 8]);
  (5383, [S_ true 0 true 0 1; S_ true 0 true 1 8; S_ false 2 true 2 3]);
  (5385, [S_ true 0 true 0 2; S_ true 0 true 1 2; S_ true 0 true 2 5; S_ true 0 true 3 3]);
  (5387, [S_ true 0 true 0 2; S_ true 0 true 1 2; S_ true 1 true 2 7; S_ true 0 true 3 1]);
  (5389, [S_ true 0 true 0 1; S_ true 0 true 1 7; S_ false 2 true 2 3; S_ false 0 true 3 1]);
  (5391, [S_ true 0 true 0 2; S_ true 0 true 1 2; S_ true 0 true 2 4; S_ false 0 true 3 4]);
  (5393, [S_ true 0 true 0 4; S_ true 1 true 0 2; S_ true 1 true 2 8]);
  (5395, [S_ true 0 true 0 2; S_ true 0 true 1 2; S_ true 1 true 2 6; S_ false 0 true 3 2]);
  (5397, [S_ true 0 true 0 1; S_ false 1 true 1 3; S_ true 2 true 2 8]);
  (5399, [S_ true 0 true 0 2; S_ true 1 true 1 4; S_ false 1 true 2 3; S_ false 0 true 3 3]);
  (5401, [S_ true 0 true 0 2; S_ true 1 true 1 4; S_ false 1 true 2 3; S_ true 0 true 3 3]);
  (5403, [S_ true 0 true 0 1; S_ true 0 true 1 6; S_ false 2 true 2 3; S_ false 0 true 3 2]);
  (5405, [S_ true 0 true 0 1; S_ true 0 true 1 6; S_ false 2 true 2 3; S_ true 0 true 3 2]);
  (5407, [S_ true 0 true 0 2; S_ true 0 true 1 2; S_ true 0 true 2 3; S_ false 0 true 3 5]);
  (5409, [S_ true 0 true 0 2; S_ true 0 true 1 2; S_ true 0 true 2 3; S_ true 0 true 3 5]);
  (5411, [S_ true 0 true 0 4; S_ true 1 true 1 7; S_ true 2 true 0 9; S_ true 0 true 3 1]);
  (5413, [S_ true 0 true 0 2; S_ true 0 true 1 2; S_ true 0 true 2 3; S_ true 1 true 3 5]);
  (5415, [S_ true 0 true 0 2; S_ true 0 true 1 2; S_ true 1 true 2 5; S_ false 0 true 3 3]);
  (5417, [S_ true 0 true 0 2; S_ true 0 true 1 2; S_ true 1 true 2 5; S_ true 0 true 3 3]);
  (5419, [S_ true 0 true 0 2; S_ true 1 true 1 4; S_ false 1 true 2 4; S_ false 0 true 3 2]);
  (5421, [S_ true 0 true 0 2; S_ true 1 true 1 4; S_ false 1 true 2 4; S_ true 0 true 3 2]);
  (5423, [S_ true 0 true 0 2; S_ false 0 true 1 6; S_ true 2 true 2 4]);
  (5425, [S_ true 0 true 0 2; S_ true 1 true 1 4; S_ false 0 true 2 2; S_ true 0 true 3 4]);
  (5427, [S_ true 0 true 0 2; S_ true 1 true 1 4; S_ false 0 true 2 3; S_ false 1 true 3 3]);
  (5429, [S_ true 0 true 0 2; S_ true 1 true 1 4; S_ false 1 true 2 5; S_ false 0 true 3 1]);
  (5431, [S_ true 0 true 0 2; S_ true 1 true 1 4; S_ false 0 true 2 3; S_ false 0 true 3 3]);
  (5433, [S_ true 0 true 0 2; S_ true 1 true 1 4; S_ false 0 true 2 3; S_ true 0 true 3 3]);
  (5435, [S_ true 0 true 0 2; S_ true 1 true 1 4; S_ false 1 true 2 6]);
  (5437, [S_ true 0 true 0 2; S_ true 1 true 1 4; S_ false 0 true 2 4; S_ true 0 true 3 2]);
  (5439, [S_ true 0 true 0 2; S_ true 1 true 1 4; S_ false 0 true 2 6]);
  (5441, [S_ true 0 true 0 2; S_ true 1 true 1 4; S_ true 0 true 2 6]);
  (5443, [S_ true 0 true 0 2; S_ true 1 true 1 4; S_ true 0 true 2 4; S_ false 0 true 3 2]);
  (5445, [S_ true 0 true 0 2; S_ true 1 true 1 4; S_ true 1 true 2 6]);
  (5447, [S_ true 0 true 0 2; S_ true 1 true 1 4; S_ true 0 true 2 3; S_ false 0 true 3 3]);
  (5449, [S_ true 0 true 0 2; S_ true 1 true 1 4; S_ true 0 true 2 3; S_ true 0 true 3 3]);
  (5451, [S_ true 0 true 0 2; S_ true 1 true 1 4; S_ true 1 true 2 5; S_ true 0 true 3 1]);
  (5453, [S_ true 0 true 0 2; S_ true 1 true 1 4; S_ true 0 true 2 3; S_ true 1 true 3 3]);
  (5455, [S_ true 0 true 0 2; S_ true 1 true 1 4; S_ true 0 true 2 2; S_ false 0 true 3 4]);
  (5457, [S_ true 0 true 0 2; S_ true 0 true 1 6; S_ true 2 true 2 4]);
  (5459, [S_ true 0 true 0 2; S_ true 1 true 1 4; S_ true 1 true 2 4; S_ false 0 true 3 2]);
  (5461, [S_ true 0 true 0 2; S_ true 1 true 1 4; S_ true 1 true 2 4; S_ true 0 true 3 2]);
  (5463, [S_ true 0 true 0 2; S_ false 0 true 1 2; S_ false 0 true 2 5; S_ true 3 true 3 3]);
  (5465, [S_ true 0 true 0 4; S_ true 1 true 1 6; S_ true 0 true 1 5; S_ true 2 true 3 3]);
  (5467, [S_ true 0 true 0 2; S_ true 1 true 1 4; S_ true 0 true 2 1; S_ false 1 true 3 5]);
  (5469, [S_ true 0 true 0 2; S_ true 0 true 1 5; S_ true 2 true 2 4; S_ false 1 true 3 1]);
  (5471, [S_ true 0 true 0 2; S_ true 1 true 1 4; S_ true 0 true 2 1; S_ false 0 true 3 5]);
  (5473, [S_ true 0 true 0 2; S_ true 1 true 1 4; S_ true 0 true 2 1; S_ true 0 true 3 5]);
  (5475, [S_ true 0 true 0 2; S_ true 0 true 1 5; S_ true 2 true 2 4; S_ true 0 true 3 1]);
  (5477, [S_ true 0 true 0 2; S_ true 1 true 1 4; S_ true 0 true 2 1; S_ true 1 true 3 5]);
  (5479, [S_ true 0 true 0 2; S_ true 1 true 1 4; S_ true 1 true 2 3; S_ false 0 true 3 3]);
  (5481, [S_ true 0 true 0 2; S_ true 1 true 1 4; S_ true 1 true 2 3; S_ true 0 true 3 3]);
  (5483, [S_ false 0 true 0 3; S_ true 1 true 1 7; S_ false 2 true 0 12; S_ false 2 true 3 1]);
  (5485, [S_ true 0 true 0 1; S_ true 0 true 1 4; S_ false 2 true 2 3; S_ false 1 true 3 4]);
  (5487, [S_ true 0 true 0 1; S_ true 0 true 1 4; S_ false 2 true 2 3; S_ false 0 true 3 4]);
  (5489, [S_ true 0 true 0 1; S_ true 0 true 1 4; S_ false 2 true 2 3; S_ true 0 true 3 4]);
  (5491, [S_ true 0 true 0 1; S_ true 0 true 1 4; S_ false 2 true 2 3; S_ true 1 true 3 4]);
  (5493, [S_ true 0 true 0 1; S_ false 0 true 1 2; S_ false 0 true 2 2; S_ false 2 true 3 7]);
  (5495, [S_ true 0 true 0 4; S_ true 1 true 1 5; S_ true 2 true 0 7; S_ false 1 true 3 3]);
  (5497, [S_ false 0 true 0 3; S_ false 1 true 1 7; S_ true 0 true 0 3; S_ true 2 true 3 9]);
  (5499, [S_ true 0 true 0 2; S_ true 1 true 1 7; S_ true 0 true 0 1; S_ false 2 true 3 11]);
  (5501, [S_ true 0 true 0 1; S_ false 0 true 1 2; S_ false 0 true 2 2; S_ false 1 true 3 7]);
  (5503, [S_ true 0 true 0 1; S_ false 0 true 1 2; S_ false 0 true 2 2; S_ false 0 true 3 7]);
  (5505, [S_ true 0 true 0 1; S_ false 0 true 1 2; S_ false 0 true 2 2; S_ true 0 true 3 7]);
  (5507, [S_ true 0 true 0 1; S_ false 0 true 1 2; S_ false 0 true 2 2; S_ true 1 true 3 7]);
  (5509, [S_ true 0 true 0 2; S_ true 1 true 1 7; S_ false 0 true 1 2; S_ true 2 true 3 8]);
  (5511, [S_ true 0 true 0 4; S_ true 1 true 1 5; S_ true 2 true 0 7; S_ false 0 true 3 3]);
  (5513, [S_ true 0 true 0 4; S_ true 1 true 1 5; S_ true 2 true 0 7; S_ true 0 true 3 3]);
  (5515, [S_ true 0 true 0 1; S_ false 0 true 1 2; S_ false 0 true 2 2; S_ true 2 true 3 7]);
  (5517, [S_ true 0 true 0 7; S_ true 1 true 0 8; S_ false 2 true 2 4; S_ true 3 false 1 1]);
  (5519, [S_ false 0 true 0 3; S_ false 1 true 1 5; S_ true 2 true 0 7; S_ false 0 true 3 4]);
  (5521, [S_ false 0 true 0 3; S_ false 1 true 1 5; S_ true 2 true 0 7; S_ true 0 true 3 4]);
  (5523, [S_ true 0 true 0 2; S_ true 0 true 1 2; S_ false 2 true 2 8; S_ true 3 true 2 3]);
  (5525, [S_ true 0 true 0 2; S_ true 1 true 1 4; S_ true 2 true 2 6]);
  (5527, [S_ false 0 true 0 3; S_ false 1 true 1 5; S_ true 2 true 0 7; S_ true 1 true 3 4]);
  (5529, [S_ true 0 true 0 4; S_ true 1 true 1 5; S_ true 2 true 0 7; S_ true 1 true 3 3]);
  (5531, [S_ true 0 true 0 2; S_ false 1 true 1 5; S_ true 0 true 1 2; S_ true 2 true 3 8]);
  (5533, [S_ true 0 true 0 1; S_ false 0 true 1 2; S_ false 1 true 2 4; S_ false 1 true 3 5]);
  (5535, [S_ true 0 true 0 1; S_ false 0 true 1 2; S_ false 1 true 2 4; S_ false 0 true 3 5]);
  (5537, [S_ true 0 true 0 1; S_ false 0 true 1 2; S_ false 1 true 2 4; S_ true 0 true 3 5]);
  (5539, [S_ true 0 true 0 1; S_ false 0 true 1 2; S_ false 1 true 2 4; S_ true 1 true 3 5]);
  (5541, [S_ true 0 true 0 1; S_ false 0 true 1 2; S_ false 2 true 2 6; S_ false 1 true 3 3]);
  (5543, [S_ true 0 true 0 1; S_ false 0 true 1 2; S_ false 2 true 2 6; S_ false 0 true 3 3]);
  (5545, [S_ true 0 true 0 1; S_ false 0 true 1 2; S_ false 2 true 2 6; S_ true 0 true 3 3]);
  (5547, [S_ true 0 true 0 1; S_ false 0 true 1 2; S_ false 2 true 2 6; S_ true 1 true 3 3]);
  (5549, [S_ false 0 true 0 4; S_ true 1 true 1 7; S_ true 2 false 0 6; S_ false 2 true 3 2]);
  (5551, [S_ true 0 true 0 2; S_ true 1 true 1 5; S_ false 2 true 0 9; S_ false 0 true 3 4]);
  (5553, [S_ true 0 true 0 2; S_ true 1 true 1 5; S_ false 2 true 0 9; S_ true 0 true 3 4]);
  (5555, [S_ true 0 true 0 1; S_ true 1 true 1 4; S_ true 2 true 2 7; S_ true 3 false 0 10]);
  (5557, [S_ true 0 true 0 2; S_ true 1 true 1 5; S_ false 2 true 0 9; S_ true 1 true 3 4]);
  (5559, [S_ true 0 true 0 3; S_ false 1 true 1 6; S_ true 2 true 0 7; S_ false 0 true 3 3]);
  (5561, [S_ true 0 true 0 3; S_ false 1 true 1 6; S_ true 2 true 0 7; S_ true 0 true 3 3]);
  (5563, [S_ true 0 true 0 2; S_ false 1 true 1 6; S_ true 0 true 1 3; S_ true 2 true 3 7]);
  (5565, [S_ true 0 true 0 1; S_ false 0 true 1 2; S_ false 0 true 2 3; S_ false 1 true 3 6]);
  (5567, [S_ true 0 true 0 1; S_ false 0 true 1 2; S_ false 0 true 2 3; S_ false 0 true 3 6]);
  (5569, [S_ true 0 true 0 1; S_ false 0 true 1 2; S_ false 0 true 2 3; S_ true 0 true 3 6]);
  (5571, [S_ false 0 true 0 4; S_ false 1 true 1 7; S_ true 2 false 0 9; S_ false 0 true 3 2]);
  (5573, [S_ false 0 true 0 4; S_ false 1 true 1 7; S_ true 2 false 0 9; S_ true 0 true 3 2]);
  (5575, [S_ true 0 true 0 2; S_ true 0 true 1 3; S_ true 2 true 2 4; S_ false 0 true 3 3]);
  (5577, [S_ true 0 true 0 2; S_ true 0 true 1 3; S_ true 2 true 2 4; S_ true 0 true 3 3]);
  (5579, [S_ false 0 true 0 4; S_ false 1 true 1 5; S_ false 2 true 2 2; S_ false 0 true 3 2]);
  (5581, [S_ false 0 true 0 4; S_ false 1 true 1 5; S_ false 2 true 2 2; S_ true 0 true 3 2]);
  (5583, [S_ true 0 true 0 1; S_ false 0 true 1 2; S_ false 1 true 2 5; S_ false 0 true 3 4]);
  (5585, [S_ true 0 true 0 1; S_ false 0 true 1 2; S_ false 1 true 2 5; S_ true 0 true 3 4]);
  (5587, [S_ true 0 true 0 1; S_ false 0 true 1 2; S_ false 2 true 2 7; S_ false 0 true 3 2]);
  (5589, [S_ true 0 true 0 1; S_ false 0 true 1 2; S_ false 2 true 2 7; S_ true 0 true 3 2]);
  (5591, [S_ true 0 true 0 2; S_ true 1 true 1 6; S_ false 2 true 0 10; S_ false 0 true 3 3]);
  (5593, [S_ true 0 true 0 2; S_ true 1 true 1 6; S_ false 2 true 0 10; S_ true 0 true 3 3]);
  (5595, [S_ true 0 true 0 3; S_ false 1 true 1 7; S_ true 2 true 0 8; S_ false 0 true 3 2]);
  (5597, [S_ true 0 true 0 3; S_ false 1 true 1 7; S_ true 2 true 0 8; S_ true 0 true 3 2]);
  (5599, [S_ true 0 true 0 1; S_ false 0 true 1 2; S_ false 0 true 2 4; S_ false 0 true 3 5]);
  (5601, [S_ true 0 true 0 1; S_ false 0 true 1 2; S_ false 0 true 2 4; S_ true 0 true 3 5]);
  (5603, [S_ false 0 true 0 3; S_ false 1 true 1 7; S_ true 2 true 0 9; S_ false 0 true 3 2]);
  (5605, [S_ false 0 true 0 3; S_ false 1 true 1 7; S_ true 2 true 0 9; S_ true 0 true 3 2]);
  (5607, [S_ true 0 true 0 1; S_ false 0 true 1 2; S_ false 1 true 2 6; S_ false 0 true 3 3]);
  (5609, [S_ true 0 true 0 1; S_ false 0 true 1 2; S_ false 1 true 2 6; S_ true 0 true 3 3]);
  (5611, [S_ true 0 true 0 1; S_ false 0 true 1 2; S_ false 2 true 2 8; S_ true 0 true 3 1]);
  (5613, [S_ true 0 true 0 2; S_ true 1 true 1 7; S_ false 2 true 0 11; S_ true 0 true 3 2]);
  (5615, [S_ true 0 true 0 1; S_ false 0 true 1 2; S_ false 0 true 2 5; S_ false 0 true 3 4]);
  (5617, [S_ false 0 true 0 4; S_ true 1 false 0 2; S_ false 1 true 2 9]);
  (5619, [S_ true 0 true 0 1; S_ false 0 true 1 2; S_ false 1 true 2 7; S_ false 0 true 3 2]);
  (5621, [S_ true 0 true 0 1; S_ true 1 true 0 3; S_ false 2 true 2 9]);
  (5623, [S_ true 0 true 0 3; S_ true 1 true 0 1; S_ false 1 true 2 9]);
  (5625, [S_ false 0 true 0 3; S_ true 1 true 0 2; S_ false 1 true 2 9]);
  (5627, [S_ true 0 true 0 2; S_ false 1 true 0 4; S_ false 1 true 2 9]);
  (5629, [S_ true 0 true 0 1; S_ true 1 true 0 3; S_ false 1 true 2 9]);
  (5631, [S_ true 0 true 0 1; S_ true 1 true 0 3; S_ false 0 true 2 9])].

Definition asc13_chunk_3 : asc_map := [
  (5633, [S_ true 0 true 0 1; S_ true 1 true 0 3; S_ true 0 true 2 9]);
  (5635, [S_ true 0 true 0 1; S_ true 1 true 0 3; S_ true 1 true 2 9]);
  (5637, [S_ true 0 true 0 2; S_ false 1 true 0 4; S_ true 1 true 2 9]);
  (5639, [S_ false 0 true 0 3; S_ true 1 true 0 2; S_ true 1 true 2 9]);
  (5641, [S_ true 0 true 0 3; S_ true 1 true 0 1; S_ true 1 true 2 9]);
  (5643, [S_ true 0 true 0 1; S_ true 1 true 0 3; S_ true 2 true 2 9]);
  (5645, [S_ true 0 true 0 1; S_ false 0 true 1 2; S_ true 1 true 2 7; S_ true 0 true 3 2]);
  (5647, [S_ false 0 true 0 4; S_ true 1 false 0 2; S_ true 1 true 2 9]);
  (5649, [S_ true 0 true 0 1; S_ false 0 true 1 2; S_ true 0 true 2 5; S_ true 0 true 3 4]);
  (5651, [S_ true 0 true 0 2; S_ false 1 true 1 7; S_ false 2 true 0 11; S_ false 0 true 3 2]);
  (5653, [S_ true 0 true 0 1; S_ false 0 true 1 2; S_ true 2 true 2 8; S_ false 0 true 3 1]);
  (5655, [S_ true 0 true 0 1; S_ false 0 true 1 2; S_ true 1 true 2 6; S_ false 0 true 3 3]);
  (5657, [S_ true 0 true 0 1; S_ false 0 true 1 2; S_ true 1 true 2 6; S_ true 0 true 3 3]);
  (5659, [S_ false 0 true 0 3; S_ true 1 true 1 7; S_ true 2 true 0 9; S_ false 0 true 3 2]);
  (5661, [S_ false 0 true 0 3; S_ true 1 true 1 7; S_ true 2 true 0 9; S_ true 0 true 3 2]);
  (5663, [S_ true 0 true 0 1; S_ false 0 true 1 2; S_ true 0 true 2 4; S_ false 0 true 3 5]);
  (5665, [S_ true 0 true 0 1; S_ false 0 true 1 2; S_ true 0 true 2 4; S_ true 0 true 3 5]);
  (5667, [S_ true 0 true 0 3; S_ true 1 true 1 7; S_ true 2 true 0 8; S_ false 0 true 3 2]);
  (5669, [S_ true 0 true 0 1; S_ false 1 true 1 4; S_ false 2 true 2 6; S_ false 0 true 3 1]);
  (5671, [S_ true 0 true 0 1; S_ false 1 true 1 4; S_ false 2 true 2 6; S_ true 0 true 3 1]);
  (5673, [S_ true 0 true 0 2; S_ false 1 true 1 6; S_ false 2 true 0 10; S_ true 0 true 3 3]);
  (5675, [S_ true 0 true 0 1; S_ false 0 true 1 2; S_ true 2 true 2 7; S_ false 0 true 3 2]);
  (5677, [S_ true 0 true 0 1; S_ false 0 true 1 2; S_ true 2 true 2 7; S_ true 0 true 3 2]);
  (5679, [S_ true 0 true 0 1; S_ false 0 true 1 2; S_ true 1 true 2 5; S_ false 0 true 3 4]);
  (5681, [S_ true 0 true 0 1; S_ false 0 true 1 2; S_ true 1 true 2 5; S_ true 0 true 3 4]);
  (5683, [S_ true 0 true 0 1; S_ false 0 true 1 2; S_ true 1 true 2 5; S_ true 1 true 3 4]);
  (5685, [S_ true 0 true 0 1; S_ false 0 true 1 2; S_ true 0 true 2 3; S_ false 2 true 3 6]);
  (5687, [S_ true 0 true 0 2; S_ false 0 true 1 4; S_ true 2 true 2 3; S_ false 0 true 3 3]);
  (5689, [S_ true 0 true 0 2; S_ false 0 true 1 4; S_ true 2 true 2 3; S_ true 0 true 3 3]);
  (5691, [S_ false 0 true 0 4; S_ true 1 true 1 7; S_ true 2 false 0 9; S_ false 0 true 3 2]);
  (5693, [S_ false 0 true 0 4; S_ true 1 true 1 7; S_ true 2 false 0 9; S_ true 0 true 3 2]);
  (5695, [S_ true 0 true 0 1; S_ false 0 true 1 2; S_ true 0 true 2 3; S_ false 0 true 3 6]);
  (5697, [S_ true 0 true 0 1; S_ false 0 true 1 2; S_ true 0 true 2 3; S_ true 0 true 3 6]);
  (5699, [S_ true 0 true 0 1; S_ false 0 true 1 5; S_ false 2 true 2 4; S_ false 0 true 3 2]);
  (5701, [S_ true 0 true 0 1; S_ false 0 true 1 5; S_ false 2 true 2 4; S_ true 0 true 3 2]);
  (5703, [S_ true 0 true 0 1; S_ false 0 true 1 3; S_ false 2 true 2 5; S_ false 0 true 3 3]);
  (5705, [S_ true 0 true 0 1; S_ false 0 true 1 3; S_ false 2 true 2 5; S_ true 0 true 3 3]);
  (5707, [S_ true 0 true 0 1; S_ false 0 true 1 3; S_ false 2 true 2 5; S_ true 1 true 3 3]);
  (5709, [S_ true 0 true 0 1; S_ false 1 true 1 4; S_ false 1 true 2 3; S_ false 1 true 3 4]);
  (5711, [S_ true 0 true 0 1; S_ false 1 true 1 4; S_ false 1 true 2 3; S_ false 0 true 3 4]);
  (5713, [S_ true 0 true 0 1; S_ false 1 true 1 4; S_ false 1 true 2 3; S_ true 0 true 3 4]);
  (5715, [S_ true 0 true 0 1; S_ false 1 true 1 4; S_ false 2 true 2 7]);
  (5717, [S_ true 0 true 0 1; S_ false 0 true 1 2; S_ true 2 true 2 6; S_ false 1 true 3 3]);
  (5719, [S_ true 0 true 0 1; S_ false 0 true 1 2; S_ true 2 true 2 6; S_ false 0 true 3 3]);
  (5721, [S_ true 0 true 0 1; S_ false 0 true 1 2; S_ true 2 true 2 6; S_ true 0 true 3 3]);
  (5723, [S_ true 0 true 0 2; S_ false 0 true 1 5; S_ true 2 true 2 3; S_ false 0 true 3 2]);
  (5725, [S_ true 0 true 0 2; S_ false 0 true 1 5; S_ true 2 true 2 3; S_ true 0 true 3 2]);
  (5727, [S_ true 0 true 0 1; S_ false 1 true 1 4; S_ false 0 true 2 2; S_ false 0 true 3 5]);
  (5729, [S_ true 0 true 0 1; S_ false 1 true 1 4; S_ false 0 true 2 2; S_ true 0 true 3 5]);
  (5731, [S_ true 0 true 0 1; S_ false 0 true 1 6; S_ false 2 true 2 4; S_ true 0 true 3 1]);
  (5733, [S_ true 0 true 0 1; S_ false 1 true 1 4; S_ false 1 true 2 4; S_ false 1 true 3 3]);
  (5735, [S_ true 0 true 0 1; S_ false 1 true 1 4; S_ false 1 true 2 4; S_ false 0 true 3 3]);
  (5737, [S_ true 0 true 0 1; S_ false 1 true 1 4; S_ false 1 true 2 4; S_ true 0 true 3 3]);
  (5739, [S_ true 0 true 0 3; S_ false 0 true 1 5; S_ true 2 true 2 2; S_ false 0 true 3 2]);
  (5741, [S_ true 0 true 0 2; S_ false 0 true 1 6; S_ true 2 true 2 3; S_ false 0 true 3 1]);
  (5743, [S_ true 0 true 0 1; S_ false 1 true 1 4; S_ false 0 true 2 3; S_ false 0 true 3 4]);
  (5745, [S_ true 0 true 0 1; S_ false 0 true 1 7; S_ false 2 true 2 4]);
  (5747, [S_ true 0 true 0 1; S_ false 1 true 1 4; S_ false 1 true 2 5; S_ false 0 true 3 2]);
  (5749, [S_ true 0 true 0 1; S_ false 1 true 1 4; S_ false 1 true 2 5; S_ true 0 true 3 2]);
  (5751, [S_ true 0 true 0 2; S_ false 0 true 1 7; S_ true 2 true 2 3]);
  (5753, [S_ true 0 true 0 1; S_ false 1 true 1 4; S_ false 0 true 2 4; S_ true 0 true 3 3]);
  (5755, [S_ true 0 true 0 2; S_ true 1 true 1 3; S_ false 1 true 2 7]);
  (5757, [S_ true 0 true 0 1; S_ false 1 true 1 4; S_ false 1 true 2 7]);
  (5759, [S_ true 0 true 0 1; S_ false 1 true 1 4; S_ false 0 true 2 7]);
  (5761, [S_ true 0 true 0 1; S_ false 1 true 1 4; S_ true 0 true 2 7]);
  (5763, [S_ true 0 true 0 1; S_ false 1 true 1 4; S_ true 1 true 2 7]);
  (5765, [S_ true 0 true 0 2; S_ true 1 true 1 3; S_ true 1 true 2 7]);
  (5767, [S_ true 0 true 0 1; S_ false 1 true 1 4; S_ true 0 true 2 4; S_ false 0 true 3 3]);
  (5769, [S_ true 0 true 0 2; S_ true 0 true 1 7; S_ true 2 true 2 3]);
  (5771, [S_ true 0 true 0 1; S_ false 1 true 1 4; S_ true 1 true 2 5; S_ false 0 true 3 2]);
  (5773, [S_ true 0 true 0 1; S_ false 1 true 1 4; S_ true 1 true 2 5; S_ true 0 true 3 2]);
  (5775, [S_ true 0 true 0 1; S_ true 0 true 1 7; S_ false 2 true 2 4]);
  (5777, [S_ true 0 true 0 1; S_ false 1 true 1 4; S_ true 0 true 2 3; S_ true 0 true 3 4]);
  (5779, [S_ true 0 true 0 2; S_ true 0 true 1 6; S_ true 2 true 2 3; S_ true 0 true 3 1]);
  (5781, [S_ true 0 true 0 3; S_ true 0 true 1 5; S_ true 2 true 2 2; S_ true 0 true 3 2]);
  (5783, [S_ true 0 true 0 1; S_ false 1 true 1 4; S_ true 1 true 2 4; S_ false 0 true 3 3]);
  (5785, [S_ true 0 true 0 1; S_ false 1 true 1 4; S_ true 1 true 2 4; S_ true 0 true 3 3]);
  (5787, [S_ true 0 true 0 1; S_ false 1 true 1 4; S_ true 1 true 2 4; S_ true 1 true 3 3]);
  (5789, [S_ true 0 true 0 1; S_ true 0 true 1 6; S_ false 2 true 2 4; S_ false 0 true 3 1]);
  (5791, [S_ true 0 true 0 1; S_ false 1 true 1 4; S_ true 0 true 2 2; S_ false 0 true 3 5]);
  (5793, [S_ true 0 true 0 1; S_ false 1 true 1 4; S_ true 0 true 2 2; S_ true 0 true 3 5]);
  (5795, [S_ true 0 true 0 1; S_ false 0 true 1 3; S_ false 2 true 2 6; S_ false 0 true 3 2]);
  (5797, [S_ true 0 true 0 1; S_ false 0 true 1 3; S_ false 2 true 2 6; S_ true 0 true 3 2]);
  (5799, [S_ true 0 true 0 3; S_ true 0 true 1 4; S_ true 2 true 2 2; S_ false 0 true 3 3]);
  (5801, [S_ true 0 true 0 3; S_ true 0 true 1 4; S_ true 2 true 2 2; S_ true 0 true 3 3]);
  (5803, [S_ true 0 true 0 2; S_ true 1 true 1 7; S_ false 0 true 2 2; S_ true 2 true 3 1]);
  (5805, [S_ true 0 true 0 1; S_ false 1 true 1 4; S_ true 2 true 2 7]);
  (5807, [S_ true 0 true 0 1; S_ false 1 true 1 4; S_ true 1 true 2 3; S_ false 0 true 3 4]);
  (5809, [S_ true 0 true 0 1; S_ false 1 true 1 4; S_ true 1 true 2 3; S_ true 0 true 3 4]);
  (5811, [S_ true 0 true 0 1; S_ false 1 true 1 4; S_ true 1 true 2 3; S_ true 1 true 3 4]);
  (5813, [S_ false 0 true 0 4; S_ false 1 true 1 6; S_ true 2 true 0 9; S_ false 1 true 3 2]);
  (5815, [S_ true 0 true 0 3; S_ true 1 true 1 5; S_ false 2 true 0 10; S_ false 0 true 3 3]);
  (5817, [S_ true 0 true 0 3; S_ true 1 true 1 5; S_ false 2 true 0 10; S_ true 0 true 3 3]);
  (5819, [S_ true 0 true 0 1; S_ true 0 true 1 5; S_ false 2 true 2 4; S_ false 0 true 3 2]);
  (5821, [S_ true 0 true 0 1; S_ true 0 true 1 5; S_ false 2 true 2 4; S_ true 0 true 3 2]);
  (5823, [S_ true 0 true 0 1; S_ false 0 true 1 3; S_ false 0 true 2 2; S_ false 0 true 3 6]);
  (5825, [S_ true 0 true 0 1; S_ false 0 true 1 3; S_ false 0 true 2 2; S_ true 0 true 3 6]);
  (5827, [S_ false 0 true 0 4; S_ false 1 true 1 6; S_ true 2 true 0 9; S_ false 0 true 3 2]);
  (5829, [S_ false 0 true 0 4; S_ false 1 true 1 6; S_ true 2 true 0 9; S_ true 0 true 3 2]);
  (5831, [S_ true 0 true 0 2; S_ true 0 true 1 4; S_ true 2 true 2 3; S_ false 0 true 3 3]);
  (5833, [S_ true 0 true 0 2; S_ true 0 true 1 4; S_ true 2 true 2 3; S_ true 0 true 3 3]);
  (5835, [S_ true 0 true 0 2; S_ false 1 true 1 7; S_ true 1 true 1 6; S_ true 2 true 3 4]);
  (5837, [S_ true 0 true 0 1; S_ false 0 true 1 3; S_ false 1 true 2 4; S_ false 1 true 3 4]);
  (5839, [S_ true 0 true 0 1; S_ false 0 true 1 3; S_ false 1 true 2 4; S_ false 0 true 3 4]);
  (5841, [S_ true 0 true 0 1; S_ false 0 true 1 3; S_ false 1 true 2 4; S_ true 0 true 3 4]);
  (5843, [S_ true 0 true 0 1; S_ false 0 true 1 3; S_ false 2 true 2 7; S_ true 0 true 3 1]);
  (5845, [S_ true 0 true 0 2; S_ true 1 true 1 7; S_ true 1 true 1 6; S_ true 2 true 3 4]);
  (5847, [S_ true 0 true 0 1; S_ false 0 true 1 3; S_ false 0 true 2 2; S_ true 2 true 3 6]);
  (5849, [S_ true 0 true 0 1; S_ false 1 true 1 4; S_ true 2 true 2 6; S_ false 0 true 3 1]);
  (5851, [S_ true 0 true 0 1; S_ false 1 true 1 4; S_ true 2 true 2 6; S_ true 0 true 3 1]);
  (5853, [S_ true 0 true 0 3; S_ true 1 true 1 6; S_ false 2 true 0 11; S_ true 0 true 3 2]);
  (5855, [S_ true 0 true 0 1; S_ false 0 true 1 3; S_ false 0 true 2 3; S_ false 0 true 3 5]);
  (5857, [S_ false 0 true 0 5; S_ true 1 false 0 3; S_ false 1 true 2 8]);
  (5859, [S_ true 0 true 0 1; S_ false 1 true 1 5; S_ false 2 true 2 6]);
  (5861, [S_ false 0 true 0 3; S_ false 1 true 1 6; S_ true 2 true 0 10; S_ true 0 true 3 2]);
  (5863, [S_ true 0 true 0 1; S_ false 0 true 1 3; S_ false 1 true 2 5; S_ false 0 true 3 3]);
  (5865, [S_ true 0 true 0 1; S_ false 0 true 1 3; S_ false 2 true 2 8]);
  (5867, [S_ true 0 true 0 1; S_ false 0 true 1 3; S_ false 1 true 2 5; S_ true 1 true 3 3]);
  (5869, [S_ true 0 true 0 3; S_ true 1 true 1 7; S_ false 2 true 0 12; S_ false 0 true 3 1]);
  (5871, [S_ true 0 true 0 1; S_ false 0 true 1 3; S_ false 0 true 2 4; S_ false 0 true 3 4]);
  (5873, [S_ false 0 true 0 4; S_ true 1 true 0 3; S_ false 1 true 2 8]);
  (5875, [S_ true 0 true 0 1; S_ false 0 true 1 3; S_ false 1 true 2 6; S_ false 0 true 3 2]);
  (5877, [S_ true 0 true 0 1; S_ false 0 true 1 3; S_ false 1 true 2 6; S_ true 0 true 3 2]);
  (5879, [S_ true 0 true 0 3; S_ false 1 true 0 5; S_ false 1 true 2 8]);
  (5881, [S_ false 0 true 0 3; S_ true 1 true 0 4; S_ false 1 true 2 8]);
  (5883, [S_ true 0 true 0 1; S_ false 0 true 1 3; S_ false 0 true 2 6; S_ false 0 true 3 2]);
  (5885, [S_ true 0 true 0 1; S_ true 1 true 0 8; S_ false 2 true 1 11]);
  (5887, [S_ true 0 true 0 1; S_ true 0 true 0 8; S_ false 2 true 1 11]);
  (5889, [S_ true 0 true 0 1; S_ false 0 true 0 8; S_ false 2 true 1 11]);
  (5891, [S_ true 0 true 0 1; S_ false 1 true 0 8; S_ false 2 true 1 11]);
  (5893, [S_ true 0 true 0 1; S_ false 0 true 1 3; S_ true 0 true 2 6; S_ true 0 true 3 2]);
  (5895, [S_ false 0 true 0 3; S_ true 1 true 0 4; S_ true 1 true 2 8]);
  (5897, [S_ true 0 true 0 3; S_ false 1 true 0 5; S_ true 1 true 2 8]);
  (5899, [S_ true 0 true 0 1; S_ false 0 true 1 3; S_ true 1 true 2 6; S_ false 0 true 3 2]);
  (5901, [S_ true 0 true 0 1; S_ false 0 true 1 3; S_ true 1 true 2 6; S_ true 0 true 3 2]);
  (5903, [S_ false 0 true 0 4; S_ true 1 true 0 3; S_ true 1 true 2 8]);
  (5905, [S_ true 0 true 0 1; S_ false 0 true 1 3; S_ true 0 true 2 4; S_ true 0 true 3 4]);
  (5907, [S_ true 0 true 0 3; S_ false 1 true 1 7; S_ false 2 true 0 12; S_ true 0 true 3 1]);
  (5909, [S_ true 0 true 0 1; S_ false 0 true 1 3; S_ true 1 true 2 5; S_ false 1 true 3 3]);
  (5911, [S_ true 0 true 0 1; S_ false 0 true 1 3; S_ true 2 true 2 8]);
  (5913, [S_ true 0 true 0 1; S_ false 0 true 1 3; S_ true 1 true 2 5; S_ true 0 true 3 3]);
  (5915, [S_ false 0 true 0 3; S_ true 1 true 1 6; S_ true 2 true 0 10; S_ false 0 true 3 2]);
  (5917, [S_ false 0 true 0 3; S_ true 1 true 1 6; S_ true 2 true 0 10; S_ true 0 true 3 2]);
  (5919, [S_ false 0 true 0 5; S_ true 1 false 0 3; S_ true 1 true 2 8]);
  (5921, [S_ true 0 true 0 1; S_ false 0 true 1 6; S_ false 2 true 2 5]);
  (5923, [S_ true 0 true 0 1; S_ false 0 true 1 4; S_ false 2 true 2 6; S_ true 0 true 3 1]);
  (5925, [S_ true 0 true 0 3; S_ false 1 true 1 6; S_ false 2 true 0 11; S_ true 0 true 3 2]);
  (5927, [S_ true 0 true 0 1; S_ false 1 true 1 5; S_ false 1 true 2 3; S_ false 0 true 3 3]);
  (5929, [S_ true 0 true 0 1; S_ false 1 true 1 5; S_ false 1 true 2 3; S_ true 0 true 3 3]);
  (5931, [S_ true 0 true 0 1; S_ false 1 true 1 5; S_ false 1 true 2 3; S_ true 1 true 3 3]);
  (5933, [S_ true 0 true 0 1; S_ false 0 true 1 3; S_ true 2 true 2 7; S_ false 0 true 3 1]);
  (5935, [S_ true 0 true 0 1; S_ false 1 true 1 5; S_ false 0 true 2 2; S_ false 0 true 3 4]);
  (5937, [S_ true 0 true 0 1; S_ false 1 true 1 5; S_ false 0 true 2 2; S_ true 0 true 3 4]);
  (5939, [S_ true 0 true 0 1; S_ false 1 true 1 5; S_ false 1 true 2 4; S_ false 0 true 3 2]);
  (5941, [S_ true 0 true 0 1; S_ false 1 true 1 5; S_ false 1 true 2 4; S_ true 0 true 3 2]);
  (5943, [S_ true 0 true 0 1; S_ false 1 true 1 5; S_ false 0 true 2 3; S_ false 0 true 3 3]);
  (5945, [S_ true 0 true 0 1; S_ false 1 true 1 5; S_ false 0 true 2 3; S_ true 0 true 3 3]);
  (5947, [S_ true 0 true 0 1; S_ false 1 true 1 5; S_ false 0 true 2 4; S_ false 0 true 3 2]);
  (5949, [S_ true 0 true 0 1; S_ false 1 true 1 5; S_ false 1 true 2 6]);
  (5951, [S_ true 0 true 0 1; S_ false 1 true 1 5; S_ false 0 true 2 6]);
  (5953, [S_ true 0 true 0 1; S_ false 1 true 1 5; S_ true 0 true 2 6]);
  (5955, [S_ true 0 true 0 1; S_ false 1 true 1 5; S_ true 1 true 2 6]);
  (5957, [S_ true 0 true 0 1; S_ false 1 true 1 5; S_ true 0 true 2 4; S_ true 0 true 3 2]);
  (5959, [S_ true 0 true 0 1; S_ false 1 true 1 5; S_ true 0 true 2 3; S_ false 0 true 3 3]);
  (5961, [S_ true 0 true 0 1; S_ false 1 true 1 5; S_ true 0 true 2 3; S_ true 0 true 3 3]);
  (5963, [S_ true 0 true 0 1; S_ false 1 true 1 5; S_ true 1 true 2 4; S_ false 0 true 3 2]);
  (5965, [S_ true 0 true 0 1; S_ false 1 true 1 5; S_ true 1 true 2 4; S_ true 0 true 3 2]);
  (5967, [S_ true 0 true 0 1; S_ false 1 true 1 5; S_ true 0 true 2 2; S_ false 0 true 3 4]);
  (5969, [S_ true 0 true 0 1; S_ false 0 true 1 4; S_ false 2 true 2 7]);
  (5971, [S_ true 0 true 0 1; S_ false 1 true 1 5; S_ true 0 true 2 2; S_ true 1 true 3 4]);
  (5973, [S_ true 0 true 0 1; S_ false 1 true 1 5; S_ true 1 true 2 3; S_ false 1 true 3 3]);
  (5975, [S_ true 0 true 0 1; S_ false 1 true 1 5; S_ true 1 true 2 3; S_ false 0 true 3 3]);
  (5977, [S_ true 0 true 0 1; S_ false 1 true 1 5; S_ true 1 true 2 3; S_ true 0 true 3 3]);
  (5979, [S_ true 0 true 0 1; S_ false 0 true 1 3; S_ true 2 true 2 6; S_ false 0 true 3 2]);
  (5981, [S_ true 0 true 0 1; S_ false 0 true 1 3; S_ true 2 true 2 6; S_ true 0 true 3 2]);
  (5983, [S_ true 0 true 0 1; S_ true 0 true 1 6; S_ false 2 true 2 5]);
  (5985, [S_ true 0 true 0 1; S_ false 0 true 1 5; S_ false 2 true 2 6]);
  (5987, [S_ false 0 true 0 4; S_ false 1 true 1 6; S_ true 2 true 0 11; S_ true 0 true 3 1]);
  (5989, [S_ true 0 true 0 1; S_ false 0 true 1 4; S_ false 1 true 2 4; S_ false 1 true 3 3]);
  (5991, [S_ true 0 true 0 1; S_ false 0 true 1 4; S_ false 1 true 2 4; S_ false 0 true 3 3]);
  (5993, [S_ true 0 true 0 1; S_ false 0 true 1 4; S_ false 1 true 2 4; S_ true 0 true 3 3]);
  (5995, [S_ true 0 true 0 1; S_ false 0 true 1 4; S_ false 1 true 2 4; S_ true 1 true 3 3]);
  (5997, [S_ true 0 true 0 1; S_ false 0 true 1 4; S_ false 0 true 2 3; S_ false 1 true 3 4]);
  (5999, [S_ true 0 true 0 4; S_ false 1 true 0 6; S_ false 1 true 2 7]);
  (6001, [S_ false 0 true 0 4; S_ true 1 true 0 5; S_ false 1 true 2 7]);
  (6003, [S_ true 0 true 0 1; S_ false 0 true 1 4; S_ false 1 true 2 5; S_ false 0 true 3 2]);
  (6005, [S_ true 0 true 0 1; S_ false 0 true 1 4; S_ false 1 true 2 5; S_ true 0 true 3 2]);
  (6007, [S_ true 0 true 0 1; S_ false 0 true 1 4; S_ false 0 true 2 4; S_ false 0 true 3 3]);
  (6009, [S_ true 0 true 0 1; S_ false 0 true 1 4; S_ false 0 true 2 4; S_ true 0 true 3 3]);
  (6011, [S_ true 0 true 0 1; S_ false 0 true 1 4; S_ false 0 true 2 5; S_ false 0 true 3 2]);
  (6013, [S_ true 0 true 0 1; S_ true 1 true 0 7; S_ false 2 true 1 11]);
  (6015, [S_ true 0 true 0 1; S_ true 0 true 0 7; S_ false 2 true 1 11]);
  (6017, [S_ true 0 true 0 1; S_ false 0 true 0 7; S_ false 2 true 1 11]);
  (6019, [S_ true 0 true 0 1; S_ false 1 true 0 7; S_ false 2 true 1 11]);
  (6021, [S_ true 0 true 0 1; S_ false 0 true 1 4; S_ true 0 true 2 5; S_ true 0 true 3 2]);
  (6023, [S_ true 0 true 0 1; S_ false 0 true 1 4; S_ true 0 true 2 4; S_ false 0 true 3 3]);
  (6025, [S_ true 0 true 0 1; S_ false 0 true 1 4; S_ true 0 true 2 4; S_ true 0 true 3 3]);
  (6027, [S_ true 0 true 0 1; S_ false 0 true 1 4; S_ true 1 true 2 5; S_ false 0 true 3 2]);
  (6029, [S_ true 0 true 0 1; S_ false 0 true 1 4; S_ true 1 true 2 5; S_ true 0 true 3 2]);
  (6031, [S_ false 0 true 0 4; S_ true 1 true 0 5; S_ true 1 true 2 7]);
  (6033, [S_ true 0 true 0 4; S_ false 1 true 0 6; S_ true 1 true 2 7]);
  (6035, [S_ true 0 true 0 1; S_ false 1 true 1 6; S_ false 1 true 2 3; S_ false 0 true 3 2]);
  (6037, [S_ true 0 true 0 1; S_ false 1 true 1 6; S_ false 1 true 2 3; S_ true 0 true 3 2]);
  (6039, [S_ true 0 true 0 1; S_ false 1 true 1 6; S_ false 0 true 2 2; S_ false 0 true 3 3]);
  (6041, [S_ true 0 true 0 1; S_ false 1 true 1 6; S_ false 0 true 2 2; S_ true 0 true 3 3]);
  (6043, [S_ true 0 true 0 1; S_ false 1 true 1 6; S_ false 0 true 2 3; S_ false 0 true 3 2]);
  (6045, [S_ true 0 true 0 1; S_ true 1 true 1 5; S_ false 2 true 1 11]);
  (6047, [S_ true 0 true 0 1; S_ true 0 true 1 5; S_ false 2 true 1 11]);
  (6049, [S_ true 0 true 0 1; S_ false 0 true 1 5; S_ false 2 true 1 11]);
  (6051, [S_ true 0 true 0 1; S_ false 1 true 1 5; S_ false 2 true 1 11]);
  (6053, [S_ true 0 true 0 1; S_ false 1 true 1 6; S_ true 0 true 2 3; S_ true 0 true 3 2]);
  (6055, [S_ true 0 true 0 1; S_ false 1 true 1 6; S_ true 0 true 2 2; S_ false 0 true 3 3]);
  (6057, [S_ true 0 true 0 1; S_ false 1 true 1 6; S_ true 0 true 2 2; S_ true 0 true 3 3]);
  (6059, [S_ true 0 true 0 1; S_ false 1 true 1 6; S_ true 1 true 2 3; S_ false 0 true 3 2]);
  (6061, [S_ true 0 true 0 1; S_ false 1 true 1 6; S_ true 1 true 2 3; S_ true 0 true 3 2]);
  (6063, [S_ true 0 true 0 1; S_ false 0 true 1 4; S_ true 2 true 2 7]);
  (6065, [S_ true 0 true 0 1; S_ false 0 true 1 5; S_ false 0 true 2 2; S_ true 0 true 3 4]);
  (6067, [S_ true 0 true 0 1; S_ false 0 true 1 5; S_ false 1 true 2 4; S_ false 0 true 3 2]);
  (6069, [S_ true 0 true 0 1; S_ false 0 true 1 5; S_ false 1 true 2 4; S_ true 0 true 3 2]);
  (6071, [S_ true 0 true 0 1; S_ false 0 true 1 5; S_ false 0 true 2 3; S_ false 0 true 3 3]);
  (6073, [S_ true 0 true 0 1; S_ false 0 true 1 5; S_ false 0 true 2 3; S_ true 0 true 3 3]);
  (6075, [S_ true 0 true 0 1; S_ false 0 true 1 5; S_ false 0 true 2 4; S_ false 0 true 3 2]);
  (6077, [S_ true 0 true 0 1; S_ true 1 true 0 6; S_ false 2 true 1 11]);
  (6079, [S_ true 0 true 0 1; S_ true 0 true 0 6; S_ false 2 true 1 11]);
  (6081, [S_ true 0 true 0 1; S_ false 0 true 0 6; S_ false 2 true 1 11]);
  (6083, [S_ true 0 true 0 1; S_ false 1 true 0 6; S_ false 2 true 1 11]);
  (6085, [S_ true 0 true 0 1; S_ false 0 true 1 5; S_ true 0 true 2 4; S_ true 0 true 3 2]);
  (6087, [S_ true 0 true 0 1; S_ false 0 true 1 5; S_ true 0 true 2 3; S_ false 0 true 3 3]);
  (6089, [S_ true 0 true 0 1; S_ false 0 true 1 5; S_ true 0 true 2 3; S_ true 0 true 3 3]);
  (6091, [S_ true 0 true 0 1; S_ false 1 true 1 7; S_ false 0 true 2 2; S_ false 0 true 3 2]);
  (6093, [S_ true 0 true 0 1; S_ true 1 true 1 4; S_ false 2 true 1 11]);
  (6095, [S_ true 0 true 0 1; S_ true 0 true 1 4; S_ false 2 true 1 11]);
  (6097, [S_ true 0 true 0 1; S_ false 0 true 1 4; S_ false 2 true 1 11]);
  (6099, [S_ true 0 true 0 1; S_ false 1 true 1 4; S_ false 2 true 1 11]);
  (6101, [S_ true 0 true 0 1; S_ false 1 true 1 7; S_ true 0 true 2 2; S_ true 0 true 3 2]);
  (6103, [S_ true 0 true 0 1; S_ false 0 true 1 6; S_ false 0 true 2 2; S_ false 0 true 3 3]);
  (6105, [S_ true 0 true 0 1; S_ false 0 true 1 6; S_ false 0 true 2 2; S_ true 0 true 3 3]);
  (6107, [S_ true 0 true 0 1; S_ false 0 true 1 6; S_ false 0 true 2 3; S_ false 0 true 3 2]);
  (6109, [S_ true 0 true 0 1; S_ true 1 true 0 5; S_ false 2 true 1 11]);
  (6111, [S_ true 0 true 0 1; S_ true 0 true 0 5; S_ false 2 true 1 11]);
  (6113, [S_ true 0 true 0 1; S_ false 0 true 0 5; S_ false 2 true 1 11]);
  (6115, [S_ true 0 true 0 1; S_ false 1 true 0 5; S_ false 2 true 1 11]);
  (6117, [S_ true 0 true 0 1; S_ true 1 true 1 3; S_ false 2 true 1 11]);
  (6119, [S_ true 0 true 0 1; S_ true 0 true 1 3; S_ false 2 true 1 11]);
  (6121, [S_ true 0 true 0 1; S_ false 0 true 1 3; S_ false 2 true 1 11]);
  (6123, [S_ true 0 true 0 1; S_ false 1 true 1 3; S_ false 2 true 1 11]);
  (6125, [S_ true 0 true 0 1; S_ true 1 true 0 4; S_ false 2 true 1 11]);
  (6127, [S_ true 0 true 0 1; S_ true 0 true 0 4; S_ false 2 true 1 11]);
  (6129, [S_ true 0 true 0 1; S_ false 0 true 0 4; S_ false 2 true 1 11]);
  (6131, [S_ true 0 true 0 1; S_ false 1 true 0 4; S_ false 2 true 1 11]);
  (6133, [S_ true 0 true 0 1; S_ true 1 true 0 3; S_ false 2 true 1 11]);
  (6135, [S_ true 0 true 0 1; S_ true 0 true 0 3; S_ false 2 true 1 11]);
  (6137, [S_ true 0 true 0 1; S_ true 1 true 0 2; S_ false 2 true 1 11]);
  (6139, [S_ true 0 true 0 1; S_ true 1 true 0 1; S_ false 2 true 1 11]);
  (6141, [S_ true 0 true 0 1; S_ false 1 true 1 11]);
  (6143, [S_ true 0 true 0 1; S_ false 0 true 1 11])].

Definition asc13_chunk_4 : asc_map := [
  (6145, [S_ true 0 true 0 1; S_ true 0 true 1 11]);
  (6147, [S_ true 0 true 0 1; S_ true 1 true 1 11]);
  (6149, [S_ true 0 true 0 1; S_ true 1 true 0 1; S_ true 2 true 1 11]);
  (6151, [S_ true 0 true 0 1; S_ true 1 true 0 2; S_ true 2 true 1 11]);
  (6153, [S_ true 0 true 0 1; S_ true 0 true 0 3; S_ true 2 true 1 11]);
  (6155, [S_ true 0 true 0 1; S_ true 1 true 0 3; S_ true 2 true 1 11]);
  (6157, [S_ true 0 true 0 1; S_ false 1 true 0 4; S_ true 2 true 1 11]);
  (6159, [S_ true 0 true 0 1; S_ false 0 true 0 4; S_ true 2 true 1 11]);
  (6161, [S_ true 0 true 0 1; S_ true 0 true 0 4; S_ true 2 true 1 11]);
  (6163, [S_ true 0 true 0 1; S_ true 1 true 0 4; S_ true 2 true 1 11]);
  (6165, [S_ true 0 true 0 1; S_ false 1 true 1 3; S_ true 2 true 1 11]);
  (6167, [S_ true 0 true 0 1; S_ false 0 true 1 3; S_ true 2 true 1 11]);
  (6169, [S_ true 0 true 0 1; S_ true 0 true 1 3; S_ true 2 true 1 11]);
  (6171, [S_ true 0 true 0 1; S_ true 1 true 1 3; S_ true 2 true 1 11]);
  (6173, [S_ true 0 true 0 1; S_ false 1 true 0 5; S_ true 2 true 1 11]);
  (6175, [S_ true 0 true 0 1; S_ false 0 true 0 5; S_ true 2 true 1 11]);
  (6177, [S_ true 0 true 0 1; S_ true 0 true 0 5; S_ true 2 true 1 11]);
  (6179, [S_ true 0 true 0 1; S_ true 1 true 0 5; S_ true 2 true 1 11]);
  (6181, [S_ true 0 true 0 1; S_ true 0 true 1 6; S_ true 0 true 2 3; S_ true 0 true 3 2]);
  (6183, [S_ true 0 true 0 1; S_ true 0 true 1 6; S_ true 0 true 2 2; S_ false 0 true 3 3]);
  (6185, [S_ true 0 true 0 1; S_ true 0 true 1 6; S_ true 0 true 2 2; S_ true 0 true 3 3]);
  (6187, [S_ true 0 true 0 1; S_ true 1 true 1 7; S_ false 0 true 2 2; S_ false 0 true 3 2]);
  (6189, [S_ true 0 true 0 1; S_ false 1 true 1 4; S_ true 2 true 1 11]);
  (6191, [S_ true 0 true 0 1; S_ false 0 true 1 4; S_ true 2 true 1 11]);
  (6193, [S_ true 0 true 0 1; S_ true 0 true 1 4; S_ true 2 true 1 11]);
  (6195, [S_ true 0 true 0 1; S_ true 1 true 1 4; S_ true 2 true 1 11]);
  (6197, [S_ true 0 true 0 1; S_ true 1 true 1 7; S_ true 0 true 2 2; S_ true 0 true 3 2]);
  (6199, [S_ true 0 true 0 1; S_ true 0 true 1 5; S_ false 0 true 2 3; S_ false 0 true 3 3]);
  (6201, [S_ true 0 true 0 1; S_ true 0 true 1 5; S_ false 0 true 2 3; S_ true 0 true 3 3]);
  (6203, [S_ true 0 true 0 1; S_ true 0 true 1 5; S_ false 0 true 2 4; S_ false 0 true 3 2]);
  (6205, [S_ true 0 true 0 1; S_ false 1 true 0 6; S_ true 2 true 1 11]);
  (6207, [S_ true 0 true 0 1; S_ false 0 true 0 6; S_ true 2 true 1 11]);
  (6209, [S_ true 0 true 0 1; S_ true 0 true 0 6; S_ true 2 true 1 11]);
  (6211, [S_ true 0 true 0 1; S_ true 1 true 0 6; S_ true 2 true 1 11]);
  (6213, [S_ true 0 true 0 1; S_ true 0 true 1 5; S_ true 0 true 2 4; S_ true 0 true 3 2]);
  (6215, [S_ true 0 true 0 1; S_ true 0 true 1 5; S_ true 0 true 2 3; S_ false 0 true 3 3]);
  (6217, [S_ true 0 true 0 1; S_ true 0 true 1 5; S_ true 0 true 2 3; S_ true 0 true 3 3]);
  (6219, [S_ true 0 true 0 1; S_ true 0 true 1 5; S_ true 1 true 2 4; S_ false 0 true 3 2]);
  (6221, [S_ true 0 true 0 1; S_ true 0 true 1 5; S_ true 1 true 2 4; S_ true 0 true 3 2]);
  (6223, [S_ true 0 true 0 1; S_ true 0 true 1 4; S_ false 2 true 2 7]);
  (6225, [S_ true 0 true 0 1; S_ true 0 true 1 5; S_ true 0 true 2 2; S_ true 0 true 3 4]);
  (6227, [S_ true 0 true 0 1; S_ true 1 true 1 6; S_ false 1 true 2 3; S_ false 0 true 3 2]);
  (6229, [S_ true 0 true 0 1; S_ true 1 true 1 6; S_ false 1 true 2 3; S_ true 0 true 3 2]);
  (6231, [S_ true 0 true 0 1; S_ true 1 true 1 6; S_ false 0 true 2 2; S_ false 0 true 3 3]);
  (6233, [S_ true 0 true 0 1; S_ true 1 true 1 6; S_ false 0 true 2 2; S_ true 0 true 3 3]);
  (6235, [S_ true 0 true 0 1; S_ true 1 true 1 6; S_ false 0 true 2 3; S_ false 0 true 3 2]);
  (6237, [S_ true 0 true 0 1; S_ true 1 true 1 5; S_ false 2 true 2 6]);
  (6239, [S_ true 0 true 0 1; S_ false 0 true 1 5; S_ true 2 true 1 11]);
  (6241, [S_ true 0 true 0 1; S_ true 0 true 1 5; S_ true 2 true 1 11]);
  (6243, [S_ true 0 true 0 1; S_ true 1 true 1 5; S_ true 2 true 1 11]);
  (6245, [S_ true 0 true 0 1; S_ true 1 true 1 6; S_ true 0 true 2 3; S_ true 0 true 3 2]);
  (6247, [S_ true 0 true 0 1; S_ true 1 true 1 6; S_ true 0 true 2 2; S_ false 0 true 3 3]);
  (6249, [S_ true 0 true 0 1; S_ true 1 true 1 6; S_ true 0 true 2 2; S_ true 0 true 3 3]);
  (6251, [S_ true 0 true 0 1; S_ true 1 true 1 6; S_ true 1 true 2 3; S_ false 0 true 3 2]);
  (6253, [S_ true 0 true 0 1; S_ true 1 true 1 6; S_ true 1 true 2 3; S_ true 0 true 3 2]);
  (6255, [S_ true 0 true 0 4; S_ true 1 true 0 5; S_ false 1 true 2 7]);
  (6257, [S_ false 0 true 0 4; S_ false 1 true 0 6; S_ false 1 true 2 7]);
  (6259, [S_ true 0 true 0 1; S_ true 0 true 1 4; S_ false 1 true 2 5; S_ false 0 true 3 2]);
  (6261, [S_ true 0 true 0 1; S_ true 0 true 1 4; S_ false 1 true 2 5; S_ true 0 true 3 2]);
  (6263, [S_ true 0 true 0 1; S_ true 0 true 1 4; S_ false 0 true 2 4; S_ false 0 true 3 3]);
  (6265, [S_ false 0 true 0 3; S_ false 1 true 1 3; S_ false 1 true 2 7]);
  (6267, [S_ true 0 true 0 1; S_ true 0 true 1 4; S_ false 0 true 2 5; S_ false 0 true 3 2]);
  (6269, [S_ true 0 true 0 1; S_ false 1 true 0 7; S_ true 2 true 1 11]);
  (6271, [S_ true 0 true 0 1; S_ false 0 true 0 7; S_ true 2 true 1 11]);
  (6273, [S_ true 0 true 0 1; S_ true 0 true 0 7; S_ true 2 true 1 11]);
  (6275, [S_ true 0 true 0 1; S_ true 1 true 0 7; S_ true 2 true 1 11]);
  (6277, [S_ true 0 true 0 1; S_ true 0 true 1 4; S_ true 0 true 2 5; S_ true 0 true 3 2]);
  (6279, [S_ false 0 true 0 3; S_ false 1 true 1 3; S_ true 1 true 2 7]);
  (6281, [S_ true 0 true 0 1; S_ true 0 true 1 4; S_ true 0 true 2 4; S_ true 0 true 3 3]);
  (6283, [S_ true 0 true 0 1; S_ true 0 true 1 4; S_ true 1 true 2 5; S_ false 0 true 3 2]);
  (6285, [S_ true 0 true 0 1; S_ true 0 true 1 4; S_ true 1 true 2 5; S_ true 0 true 3 2]);
  (6287, [S_ false 0 true 0 4; S_ false 1 true 0 6; S_ true 1 true 2 7]);
  (6289, [S_ true 0 true 0 4; S_ true 1 true 0 5; S_ true 1 true 2 7]);
  (6291, [S_ true 0 true 0 1; S_ true 0 true 1 4; S_ true 0 true 2 3; S_ true 1 true 3 4]);
  (6293, [S_ true 0 true 0 1; S_ true 0 true 1 4; S_ true 1 true 2 4; S_ false 1 true 3 3]);
  (6295, [S_ true 0 true 0 1; S_ true 0 true 1 4; S_ true 1 true 2 4; S_ false 0 true 3 3]);
  (6297, [S_ true 0 true 0 1; S_ true 0 true 1 4; S_ true 1 true 2 4; S_ true 0 true 3 3]);
  (6299, [S_ true 0 true 0 1; S_ true 0 true 1 3; S_ false 2 true 2 6; S_ false 0 true 3 2]);
  (6301, [S_ true 0 true 0 1; S_ true 0 true 1 3; S_ false 2 true 2 6; S_ true 0 true 3 2]);
  (6303, [S_ true 0 true 0 1; S_ false 0 true 1 6; S_ true 2 true 2 5]);
  (6305, [S_ true 0 true 0 1; S_ true 0 true 1 5; S_ true 2 true 2 6]);
  (6307, [S_ true 0 true 0 4; S_ true 1 true 1 6; S_ true 2 true 0 11; S_ true 0 true 3 1]);
  (6309, [S_ true 0 true 0 1; S_ true 1 true 1 5; S_ false 1 true 2 3; S_ false 1 true 3 3]);
  (6311, [S_ true 0 true 0 1; S_ true 1 true 1 5; S_ false 1 true 2 3; S_ false 0 true 3 3]);
  (6313, [S_ true 0 true 0 1; S_ true 1 true 1 5; S_ false 1 true 2 3; S_ true 0 true 3 3]);
  (6315, [S_ true 0 true 0 1; S_ true 1 true 1 5; S_ false 1 true 2 3; S_ true 1 true 3 3]);
  (6317, [S_ true 0 true 0 1; S_ true 1 true 1 5; S_ false 0 true 2 2; S_ false 1 true 3 4]);
  (6319, [S_ true 0 true 0 1; S_ true 1 true 1 5; S_ false 0 true 2 2; S_ false 0 true 3 4]);
  (6321, [S_ true 0 true 0 1; S_ true 0 true 1 4; S_ true 2 true 2 7]);
  (6323, [S_ true 0 true 0 1; S_ true 1 true 1 5; S_ false 1 true 2 4; S_ false 0 true 3 2]);
  (6325, [S_ true 0 true 0 1; S_ true 1 true 1 5; S_ false 1 true 2 4; S_ true 0 true 3 2]);
  (6327, [S_ true 0 true 0 1; S_ true 1 true 1 5; S_ false 0 true 2 3; S_ false 0 true 3 3]);
  (6329, [S_ true 0 true 0 1; S_ true 1 true 1 5; S_ false 0 true 2 3; S_ true 0 true 3 3]);
  (6331, [S_ true 0 true 0 1; S_ true 1 true 1 5; S_ false 0 true 2 4; S_ false 0 true 3 2]);
  (6333, [S_ true 0 true 0 1; S_ true 1 true 1 5; S_ false 1 true 2 6]);
  (6335, [S_ true 0 true 0 1; S_ true 1 true 1 5; S_ false 0 true 2 6]);
  (6337, [S_ true 0 true 0 1; S_ true 1 true 1 5; S_ true 0 true 2 6]);
  (6339, [S_ true 0 true 0 1; S_ true 1 true 1 5; S_ true 1 true 2 6]);
  (6341, [S_ true 0 true 0 1; S_ true 1 true 1 5; S_ true 0 true 2 4; S_ true 0 true 3 2]);
  (6343, [S_ true 0 true 0 1; S_ true 1 true 1 5; S_ true 0 true 2 3; S_ false 0 true 3 3]);
  (6345, [S_ true 0 true 0 1; S_ true 1 true 1 5; S_ true 0 true 2 3; S_ true 0 true 3 3]);
  (6347, [S_ true 0 true 0 1; S_ true 1 true 1 5; S_ true 1 true 2 4; S_ false 0 true 3 2]);
  (6349, [S_ true 0 true 0 1; S_ true 1 true 1 5; S_ true 1 true 2 4; S_ true 0 true 3 2]);
  (6351, [S_ true 0 true 0 1; S_ true 1 true 1 5; S_ true 0 true 2 2; S_ false 0 true 3 4]);
  (6353, [S_ true 0 true 0 1; S_ true 1 true 1 5; S_ true 0 true 2 2; S_ true 0 true 3 4]);
  (6355, [S_ true 0 true 0 1; S_ true 1 true 1 5; S_ true 0 true 2 2; S_ true 1 true 3 4]);
  (6357, [S_ true 0 true 0 1; S_ true 1 true 1 5; S_ true 1 true 2 3; S_ false 1 true 3 3]);
  (6359, [S_ true 0 true 0 1; S_ true 1 true 1 5; S_ true 1 true 2 3; S_ false 0 true 3 3]);
  (6361, [S_ true 0 true 0 1; S_ true 1 true 1 5; S_ true 1 true 2 3; S_ true 0 true 3 3]);
  (6363, [S_ true 0 true 0 3; S_ false 1 true 1 6; S_ true 2 true 0 10; S_ false 0 true 3 2]);
  (6365, [S_ true 0 true 0 3; S_ false 1 true 1 6; S_ true 2 true 0 10; S_ true 0 true 3 2]);
  (6367, [S_ true 0 true 0 5; S_ true 1 false 0 3; S_ false 1 true 2 8]);
  (6369, [S_ true 0 true 0 1; S_ true 0 true 1 6; S_ true 2 true 2 5]);
  (6371, [S_ true 0 true 0 1; S_ true 0 true 1 4; S_ true 2 true 2 6; S_ true 0 true 3 1]);
  (6373, [S_ false 0 true 0 3; S_ true 1 true 1 6; S_ false 2 true 0 11; S_ true 0 true 3 2]);
  (6375, [S_ true 0 true 0 1; S_ true 0 true 1 3; S_ false 2 true 2 8]);
  (6377, [S_ true 0 true 0 1; S_ true 0 true 1 3; S_ false 1 true 2 5; S_ true 0 true 3 3]);
  (6379, [S_ true 0 true 0 1; S_ true 0 true 1 3; S_ false 1 true 2 5; S_ true 1 true 3 3]);
  (6381, [S_ true 0 true 0 3; S_ false 1 true 1 7; S_ true 2 true 0 11; S_ false 0 true 3 1]);
  (6383, [S_ true 0 true 0 4; S_ true 1 true 0 3; S_ false 1 true 2 8]);
  (6385, [S_ true 0 true 0 1; S_ true 0 true 1 3; S_ false 0 true 2 4; S_ true 0 true 3 4]);
  (6387, [S_ true 0 true 0 1; S_ true 0 true 1 3; S_ false 1 true 2 6; S_ false 0 true 3 2]);
  (6389, [S_ true 0 true 0 1; S_ true 0 true 1 3; S_ false 1 true 2 6; S_ true 0 true 3 2]);
  (6391, [S_ true 0 true 0 3; S_ true 1 true 0 4; S_ false 1 true 2 8]);
  (6393, [S_ false 0 true 0 3; S_ false 1 true 0 5; S_ false 1 true 2 8]);
  (6395, [S_ true 0 true 0 2; S_ true 1 true 1 2; S_ false 1 true 2 8]);
  (6397, [S_ true 0 true 0 1; S_ false 1 true 0 8; S_ true 2 true 1 11]);
  (6399, [S_ true 0 true 0 1; S_ false 0 true 0 8; S_ true 2 true 1 11]);
  (6401, [S_ true 0 true 0 1; S_ true 0 true 0 8; S_ true 2 true 1 11]);
  (6403, [S_ true 0 true 0 1; S_ true 1 true 0 8; S_ true 2 true 1 11]);
  (6405, [S_ true 0 true 0 2; S_ true 1 true 1 2; S_ true 1 true 2 8]);
  (6407, [S_ false 0 true 0 3; S_ false 1 true 0 5; S_ true 1 true 2 8]);
  (6409, [S_ true 0 true 0 3; S_ true 1 true 0 4; S_ true 1 true 2 8]);
  (6411, [S_ true 0 true 0 1; S_ true 0 true 1 3; S_ true 1 true 2 6; S_ false 0 true 3 2]);
  (6413, [S_ true 0 true 0 1; S_ true 0 true 1 3; S_ true 1 true 2 6; S_ true 0 true 3 2]);
  (6415, [S_ true 0 true 0 1; S_ true 0 true 1 3; S_ true 0 true 2 4; S_ false 0 true 3 4]);
  (6417, [S_ true 0 true 0 4; S_ true 1 true 0 3; S_ true 1 true 2 8]);
  (6419, [S_ true 0 true 0 3; S_ true 1 true 1 7; S_ true 2 true 0 11; S_ true 0 true 3 1]);
  (6421, [S_ true 0 true 0 1; S_ true 0 true 1 3; S_ true 1 true 2 5; S_ false 1 true 3 3]);
  (6423, [S_ true 0 true 0 1; S_ true 0 true 1 3; S_ true 1 true 2 5; S_ false 0 true 3 3]);
  (6425, [S_ true 0 true 0 1; S_ true 0 true 1 3; S_ true 2 true 2 8]);
  (6427, [S_ true 0 true 0 1; S_ true 1 true 1 4; S_ false 2 true 2 6; S_ true 0 true 3 1]);
  (6429, [S_ false 0 true 0 3; S_ false 1 true 1 6; S_ false 2 true 0 11; S_ true 0 true 3 2]);
  (6431, [S_ true 0 true 0 1; S_ true 0 true 1 3; S_ true 0 true 2 3; S_ false 0 true 3 5]);
  (6433, [S_ true 0 true 0 5; S_ true 1 false 0 3; S_ true 1 true 2 8]);
  (6435, [S_ true 0 true 0 1; S_ true 1 true 1 5; S_ true 2 true 2 6]);
  (6437, [S_ true 0 true 0 3; S_ true 1 true 1 6; S_ true 2 true 0 10; S_ true 0 true 3 2]);
  (6439, [S_ true 0 true 0 1; S_ true 0 true 1 3; S_ true 0 true 2 2; S_ false 2 true 3 6]);
  (6441, [S_ true 0 true 0 3; S_ true 1 true 1 5; S_ true 0 true 0 1; S_ true 2 true 3 11]);
  (6443, [S_ true 0 true 0 4; S_ true 1 true 1 7; S_ false 1 true 1 7; S_ false 2 true 3 2]);
  (6445, [S_ true 0 true 0 1; S_ true 0 true 1 3; S_ true 1 true 2 4; S_ false 1 true 3 4]);
  (6447, [S_ true 0 true 0 1; S_ true 0 true 1 3; S_ true 1 true 2 4; S_ false 0 true 3 4]);
  (6449, [S_ true 0 true 0 1; S_ true 0 true 1 3; S_ true 1 true 2 4; S_ true 0 true 3 4]);
  (6451, [S_ true 0 true 0 1; S_ true 0 true 1 3; S_ true 2 true 2 7; S_ true 0 true 3 1]);
  (6453, [S_ true 0 true 0 4; S_ false 0 true 1 4; S_ false 1 true 2 3; S_ false 3 true 3 2]);
  (6455, [S_ false 0 true 0 3; S_ false 1 true 1 5; S_ false 2 true 0 10; S_ false 0 true 3 3]);
  (6457, [S_ false 0 true 0 3; S_ false 1 true 1 5; S_ false 2 true 0 10; S_ true 0 true 3 3]);
  (6459, [S_ true 0 true 0 1; S_ false 0 true 1 5; S_ true 2 true 2 4; S_ false 0 true 3 2]);
  (6461, [S_ true 0 true 0 1; S_ false 0 true 1 5; S_ true 2 true 2 4; S_ true 0 true 3 2]);
  (6463, [S_ true 0 true 0 1; S_ true 0 true 1 3; S_ true 0 true 2 2; S_ false 0 true 3 6]);
  (6465, [S_ true 0 true 0 1; S_ true 0 true 1 3; S_ true 0 true 2 2; S_ true 0 true 3 6]);
  (6467, [S_ true 0 true 0 4; S_ true 1 true 1 6; S_ true 2 true 0 9; S_ false 0 true 3 2]);
  (6469, [S_ true 0 true 0 4; S_ true 1 true 1 6; S_ true 2 true 0 9; S_ true 0 true 3 2]);
  (6471, [S_ true 0 true 0 3; S_ true 1 true 1 5; S_ true 2 true 0 9; S_ false 0 true 3 3]);
  (6473, [S_ true 0 true 0 3; S_ true 1 true 1 5; S_ true 2 true 0 9; S_ true 0 true 3 3]);
  (6475, [S_ true 0 true 0 1; S_ true 0 true 1 3; S_ true 2 true 2 6; S_ false 2 true 3 2]);
  (6477, [S_ true 0 true 0 1; S_ true 1 true 1 4; S_ false 2 true 2 7]);
  (6479, [S_ true 0 true 0 1; S_ true 1 true 1 4; S_ false 1 true 2 3; S_ false 0 true 3 4]);
  (6481, [S_ true 0 true 0 1; S_ true 1 true 1 4; S_ false 1 true 2 3; S_ true 0 true 3 4]);
  (6483, [S_ true 0 true 0 1; S_ true 1 true 1 4; S_ false 1 true 2 3; S_ true 1 true 3 4]);
  (6485, [S_ true 0 true 0 4; S_ true 1 true 1 6; S_ true 2 true 0 9; S_ true 1 true 3 2]);
  (6487, [S_ false 0 true 0 3; S_ false 0 true 1 2; S_ false 1 true 2 4; S_ false 3 true 2 8]);
  (6489, [S_ true 0 true 0 1; S_ true 0 true 1 3; S_ true 0 true 2 2; S_ true 2 true 3 6]);
  (6491, [S_ true 0 true 0 4; S_ false 0 true 1 7; S_ false 1 true 2 1; S_ false 2 true 3 1]);
  (6493, [S_ true 0 true 0 1; S_ false 0 true 1 6; S_ true 2 true 2 4; S_ false 0 true 3 1]);
  (6495, [S_ true 0 true 0 1; S_ true 1 true 1 4; S_ false 0 true 2 2; S_ false 0 true 3 5]);
  (6497, [S_ true 0 true 0 1; S_ true 1 true 1 4; S_ false 0 true 2 2; S_ true 0 true 3 5]);
  (6499, [S_ true 0 true 0 1; S_ true 0 true 1 3; S_ true 2 true 2 6; S_ false 0 true 3 2]);
  (6501, [S_ true 0 true 0 1; S_ true 0 true 1 3; S_ true 2 true 2 6; S_ true 0 true 3 2]);
  (6503, [S_ true 0 true 0 1; S_ true 1 true 1 4; S_ false 1 true 2 4; S_ false 0 true 3 3]);
  (6505, [S_ true 0 true 0 1; S_ true 1 true 1 4; S_ false 1 true 2 4; S_ true 0 true 3 3]);
  (6507, [S_ true 0 true 0 1; S_ true 1 true 1 4; S_ false 1 true 2 4; S_ true 1 true 3 3]);
  (6509, [S_ false 0 true 0 3; S_ false 1 true 1 4; S_ false 2 true 2 5; S_ false 0 true 3 1]);
  (6511, [S_ true 0 true 0 1; S_ false 0 true 1 7; S_ true 2 true 2 4]);
  (6513, [S_ true 0 true 0 1; S_ true 1 true 1 4; S_ false 0 true 2 3; S_ true 0 true 3 4]);
  (6515, [S_ true 0 true 0 1; S_ true 1 true 1 4; S_ false 1 true 2 5; S_ false 0 true 3 2]);
  (6517, [S_ true 0 true 0 1; S_ true 1 true 1 4; S_ false 1 true 2 5; S_ true 0 true 3 2]);
  (6519, [S_ true 0 true 0 1; S_ true 1 true 1 4; S_ false 0 true 2 4; S_ false 0 true 3 3]);
  (6521, [S_ true 0 true 0 1; S_ true 1 true 1 4; S_ false 0 true 2 4; S_ true 0 true 3 3]);
  (6523, [S_ true 0 true 0 1; S_ true 1 true 1 4; S_ false 0 true 2 5; S_ false 0 true 3 2]);
  (6525, [S_ true 0 true 0 1; S_ true 1 true 1 4; S_ false 1 true 2 7]);
  (6527, [S_ true 0 true 0 1; S_ true 1 true 1 4; S_ false 0 true 2 7]);
  (6529, [S_ true 0 true 0 1; S_ true 1 true 1 4; S_ true 0 true 2 7]);
  (6531, [S_ true 0 true 0 1; S_ true 1 true 1 4; S_ true 1 true 2 7]);
  (6533, [S_ true 0 true 0 1; S_ true 1 true 1 4; S_ true 0 true 2 5; S_ true 0 true 3 2]);
  (6535, [S_ true 0 true 0 1; S_ true 1 true 1 4; S_ true 0 true 2 4; S_ false 0 true 3 3]);
  (6537, [S_ true 0 true 0 1; S_ true 1 true 1 4; S_ true 0 true 2 4; S_ true 0 true 3 3]);
  (6539, [S_ true 0 true 0 1; S_ true 1 true 1 4; S_ true 1 true 2 5; S_ false 0 true 3 2]);
  (6541, [S_ true 0 true 0 1; S_ true 1 true 1 4; S_ true 1 true 2 5; S_ true 0 true 3 2]);
  (6543, [S_ true 0 true 0 1; S_ true 1 true 1 4; S_ true 0 true 2 3; S_ false 0 true 3 4]);
  (6545, [S_ true 0 true 0 1; S_ true 0 true 1 7; S_ true 2 true 2 4]);
  (6547, [S_ true 0 true 0 1; S_ true 1 true 1 4; S_ true 0 true 2 3; S_ true 1 true 3 4]);
  (6549, [S_ true 0 true 0 1; S_ true 1 true 1 4; S_ true 1 true 2 4; S_ false 1 true 3 3]);
  (6551, [S_ true 0 true 0 1; S_ true 1 true 1 4; S_ true 1 true 2 4; S_ false 0 true 3 3]);
  (6553, [S_ true 0 true 0 1; S_ true 1 true 1 4; S_ true 1 true 2 4; S_ true 0 true 3 3]);
  (6555, [S_ true 0 true 0 1; S_ true 1 true 1 4; S_ true 1 true 2 4; S_ true 1 true 3 3]);
  (6557, [S_ true 0 true 0 1; S_ true 1 true 1 4; S_ true 0 true 2 2; S_ false 1 true 3 5]);
  (6559, [S_ true 0 true 0 1; S_ true 1 true 1 4; S_ true 0 true 2 2; S_ false 0 true 3 5]);
  (6561, [S_ true 0 true 0 1; S_ true 1 true 1 4; S_ true 0 true 2 2; S_ true 0 true 3 5]);
  (6563, [S_ true 0 true 0 1; S_ true 0 true 1 6; S_ true 2 true 2 4; S_ true 0 true 3 1]);
  (6565, [S_ true 0 true 0 4; S_ true 0 true 1 7; S_ true 1 true 2 1; S_ false 2 true 3 1]);
  (6567, [S_ true 0 true 0 1; S_ true 1 true 1 4; S_ false 1 true 2 5; S_ true 2 true 3 2]);
  (6569, [S_ true 0 true 0 4; S_ true 0 true 1 4; S_ true 1 true 2 5; S_ true 3 false 2 3]);
  (6571, [S_ true 0 true 0 4; S_ false 1 true 1 7; S_ true 2 false 0 9; S_ false 1 true 3 2]);
  (6573, [S_ true 0 true 0 1; S_ true 1 true 1 4; S_ true 1 true 2 3; S_ false 1 true 3 4]);
  (6575, [S_ true 0 true 0 1; S_ true 1 true 1 4; S_ true 1 true 2 3; S_ false 0 true 3 4]);
  (6577, [S_ true 0 true 0 1; S_ true 1 true 1 4; S_ true 1 true 2 3; S_ true 0 true 3 4]);
  (6579, [S_ true 0 true 0 1; S_ true 1 true 1 4; S_ true 2 true 2 7]);
  (6581, [S_ true 0 true 0 4; S_ true 1 true 1 7; S_ true 0 true 2 1; S_ false 2 true 3 1]);
  (6583, [S_ true 0 true 0 3; S_ false 1 true 1 6; S_ true 2 true 0 8; S_ false 0 true 3 3]);
  (6585, [S_ true 0 true 0 3; S_ false 1 true 1 6; S_ true 2 true 0 8; S_ true 0 true 3 3]);
  (6587, [S_ true 0 true 0 4; S_ false 1 true 1 7; S_ true 2 false 0 9; S_ false 0 true 3 2]);
  (6589, [S_ true 0 true 0 4; S_ false 1 true 1 7; S_ true 2 false 0 9; S_ true 0 true 3 2]);
  (6591, [S_ true 0 true 0 1; S_ true 0 true 1 2; S_ false 0 true 2 3; S_ false 0 true 3 6]);
  (6593, [S_ true 0 true 0 1; S_ true 0 true 1 2; S_ false 0 true 2 3; S_ true 0 true 3 6]);
  (6595, [S_ true 0 true 0 1; S_ true 0 true 1 5; S_ true 2 true 2 4; S_ false 0 true 3 2]);
  (6597, [S_ true 0 true 0 1; S_ true 0 true 1 5; S_ true 2 true 2 4; S_ true 0 true 3 2]);
  (6599, [S_ true 0 true 0 1; S_ true 0 true 1 3; S_ true 2 true 2 5; S_ false 0 true 3 3]);
  (6601, [S_ true 0 true 0 1; S_ true 0 true 1 3; S_ true 2 true 2 5; S_ true 0 true 3 3]);
  (6603, [S_ true 0 true 0 1; S_ true 0 true 1 2; S_ false 2 true 2 7; S_ false 0 true 3 2]);
  (6605, [S_ true 0 true 0 1; S_ true 0 true 1 2; S_ false 2 true 2 7; S_ true 0 true 3 2]);
  (6607, [S_ true 0 true 0 1; S_ true 0 true 1 2; S_ false 1 true 2 5; S_ false 0 true 3 4]);
  (6609, [S_ true 0 true 0 1; S_ true 0 true 1 2; S_ false 1 true 2 5; S_ true 0 true 3 4]);
  (6611, [S_ true 0 true 0 1; S_ true 0 true 1 2; S_ false 1 true 2 5; S_ true 1 true 3 4]);
  (6613, [S_ false 0 true 0 3; S_ false 1 true 1 4; S_ false 0 true 2 5; S_ false 2 true 3 1]);
  (6615, [S_ false 0 true 0 3; S_ false 1 true 1 4; S_ false 2 true 2 6]);
  (6617, [S_ true 0 true 0 2; S_ false 1 true 1 6; S_ true 2 true 0 9; S_ true 0 true 3 3]);
  (6619, [S_ true 0 true 0 3; S_ false 1 true 1 7; S_ true 2 true 0 9; S_ false 0 true 3 2]);
  (6621, [S_ true 0 true 0 3; S_ false 1 true 1 7; S_ true 2 true 0 9; S_ true 0 true 3 2]);
  (6623, [S_ true 0 true 0 1; S_ true 0 true 1 2; S_ false 0 true 2 4; S_ false 0 true 3 5]);
  (6625, [S_ true 0 true 0 1; S_ true 0 true 1 2; S_ false 0 true 2 4; S_ true 0 true 3 5]);
  (6627, [S_ false 0 true 0 3; S_ false 1 true 1 8; S_ true 2 false 0 7; S_ false 0 true 3 2]);
  (6629, [S_ true 0 true 0 1; S_ true 0 true 1 2; S_ false 2 true 2 8; S_ false 0 true 3 1]);
  (6631, [S_ true 0 true 0 1; S_ true 0 true 1 2; S_ false 1 true 2 6; S_ false 0 true 3 3]);
  (6633, [S_ true 0 true 0 1; S_ true 0 true 1 2; S_ false 1 true 2 6; S_ true 0 true 3 3]);
  (6635, [S_ true 0 true 0 2; S_ false 1 true 1 7; S_ true 2 true 0 10; S_ false 0 true 3 2]);
  (6637, [S_ true 0 true 0 2; S_ false 1 true 1 7; S_ true 2 true 0 10; S_ true 0 true 3 2]);
  (6639, [S_ true 0 true 0 4; S_ true 1 false 0 2; S_ false 1 true 2 9]);
  (6641, [S_ false 0 true 0 4; S_ true 1 false 0 1; S_ false 1 true 2 9]);
  (6643, [S_ true 0 true 0 1; S_ false 1 true 0 4; S_ false 2 true 2 9]);
  (6645, [S_ true 0 true 0 1; S_ true 0 true 1 2; S_ false 1 true 2 7; S_ true 0 true 3 2]);
  (6647, [S_ true 0 true 0 3; S_ true 1 true 0 2; S_ false 1 true 2 9]);
  (6649, [S_ false 0 true 0 3; S_ true 1 true 0 9; S_ false 2 true 1 10]);
  (6651, [S_ true 0 true 0 2; S_ true 1 true 0 3; S_ false 1 true 2 9]);
  (6653, [S_ true 0 true 0 1; S_ false 1 true 0 4; S_ false 1 true 2 9]);
  (6655, [S_ true 0 true 0 1; S_ false 1 true 0 4; S_ false 0 true 2 9])].

Definition asc13_chunk_5 : asc_map := [
  (6657, [S_ true 0 true 0 1; S_ false 1 true 0 4; S_ true 0 true 2 9]);
  (6659, [S_ true 0 true 0 1; S_ false 1 true 0 4; S_ true 1 true 2 9]);
  (6661, [S_ true 0 true 0 2; S_ true 1 true 0 3; S_ true 1 true 2 9]);
  (6663, [S_ false 0 true 0 3; S_ false 1 true 0 9; S_ false 2 true 1 10]);
  (6665, [S_ true 0 true 0 3; S_ true 1 true 0 2; S_ true 1 true 2 9]);
  (6667, [S_ true 0 true 0 1; S_ true 0 true 1 2; S_ true 1 true 2 7; S_ false 0 true 3 2]);
  (6669, [S_ true 0 true 0 1; S_ false 1 true 0 4; S_ true 2 true 2 9]);
  (6671, [S_ false 0 true 0 4; S_ true 1 false 0 1; S_ true 1 true 2 9]);
  (6673, [S_ true 0 true 0 4; S_ true 1 false 0 2; S_ true 1 true 2 9]);
  (6675, [S_ true 0 true 0 2; S_ true 1 true 1 7; S_ true 2 true 0 10; S_ false 0 true 3 2]);
  (6677, [S_ true 0 true 0 2; S_ true 1 true 1 7; S_ true 2 true 0 10; S_ true 0 true 3 2]);
  (6679, [S_ true 0 true 0 1; S_ true 0 true 1 2; S_ true 1 true 2 6; S_ false 0 true 3 3]);
  (6681, [S_ true 0 true 0 1; S_ true 0 true 1 2; S_ true 1 true 2 6; S_ true 0 true 3 3]);
  (6683, [S_ true 0 true 0 1; S_ true 0 true 1 2; S_ true 2 true 2 8; S_ true 0 true 3 1]);
  (6685, [S_ false 0 true 0 3; S_ true 1 true 1 8; S_ true 2 false 0 7; S_ true 0 true 3 2]);
  (6687, [S_ true 0 true 0 1; S_ true 0 true 1 2; S_ true 0 true 2 4; S_ false 0 true 3 5]);
  (6689, [S_ true 0 true 0 1; S_ true 0 true 1 2; S_ true 0 true 2 4; S_ true 0 true 3 5]);
  (6691, [S_ false 0 true 0 3; S_ false 1 true 1 4; S_ false 1 true 2 4; S_ false 0 true 3 2]);
  (6693, [S_ false 0 true 0 3; S_ false 1 true 1 4; S_ false 1 true 2 4; S_ true 0 true 3 2]);
  (6695, [S_ true 0 true 0 1; S_ false 1 true 1 5; S_ true 2 true 2 3; S_ false 0 true 3 3]);
  (6697, [S_ true 0 true 0 1; S_ false 1 true 1 5; S_ true 2 true 2 3; S_ true 0 true 3 3]);
  (6699, [S_ true 0 true 0 1; S_ false 1 true 1 5; S_ true 2 true 2 3; S_ true 1 true 3 3]);
  (6701, [S_ false 0 true 0 4; S_ true 1 true 1 8; S_ true 2 false 0 9; S_ true 1 true 3 1]);
  (6703, [S_ false 0 true 0 3; S_ false 1 true 1 4; S_ false 0 true 2 2; S_ false 0 true 3 4]);
  (6705, [S_ false 0 true 0 3; S_ false 0 true 1 6; S_ false 2 true 2 4]);
  (6707, [S_ false 0 true 0 3; S_ false 1 true 1 4; S_ false 1 true 2 5; S_ true 0 true 3 1]);
  (6709, [S_ true 0 true 0 1; S_ true 0 true 1 2; S_ true 2 true 2 7; S_ true 0 true 3 2]);
  (6711, [S_ false 0 true 0 3; S_ false 1 true 1 4; S_ false 0 true 2 3; S_ false 0 true 3 3]);
  (6713, [S_ false 0 true 0 3; S_ false 1 true 1 4; S_ false 1 true 2 6]);
  (6715, [S_ false 0 true 0 3; S_ false 1 true 1 4; S_ false 0 true 2 4; S_ false 0 true 3 2]);
  (6717, [S_ false 0 true 0 3; S_ false 1 true 1 4; S_ false 0 true 2 4; S_ true 0 true 3 2]);
  (6719, [S_ false 0 true 0 3; S_ false 1 true 1 4; S_ false 0 true 2 6]);
  (6721, [S_ false 0 true 0 3; S_ false 1 true 1 4; S_ true 0 true 2 6]);
  (6723, [S_ false 0 true 0 3; S_ false 1 true 1 4; S_ true 0 true 2 4; S_ false 0 true 3 2]);
  (6725, [S_ false 0 true 0 3; S_ false 1 true 1 4; S_ true 0 true 2 4; S_ true 0 true 3 2]);
  (6727, [S_ false 0 true 0 3; S_ false 1 true 1 4; S_ true 1 true 2 6]);
  (6729, [S_ false 0 true 0 3; S_ false 1 true 1 4; S_ true 0 true 2 3; S_ true 0 true 3 3]);
  (6731, [S_ true 0 true 0 4; S_ true 1 true 1 5; S_ false 2 true 2 2; S_ false 0 true 3 2]);
  (6733, [S_ false 0 true 0 3; S_ false 1 true 1 4; S_ true 1 true 2 5; S_ false 0 true 3 1]);
  (6735, [S_ false 0 true 0 3; S_ true 0 true 1 6; S_ false 2 true 2 4]);
  (6737, [S_ false 0 true 0 3; S_ false 1 true 1 4; S_ true 0 true 2 2; S_ true 0 true 3 4]);
  (6739, [S_ false 0 true 0 3; S_ true 0 true 1 6; S_ true 0 true 2 2; S_ false 2 true 3 2]);
  (6741, [S_ false 0 true 0 3; S_ false 1 true 1 4; S_ true 1 true 2 4; S_ false 1 true 3 2]);
  (6743, [S_ false 0 true 0 3; S_ false 1 true 1 4; S_ true 0 true 2 2; S_ true 1 true 3 4]);
  (6745, [S_ false 0 true 0 3; S_ false 1 true 1 4; S_ true 0 true 2 1; S_ false 1 true 3 5]);
  (6747, [S_ false 0 true 0 3; S_ false 1 true 1 4; S_ true 1 true 2 4; S_ false 0 true 3 2]);
  (6749, [S_ false 0 true 0 3; S_ false 1 true 1 4; S_ true 1 true 2 4; S_ true 0 true 3 2]);
  (6751, [S_ false 0 true 0 3; S_ false 1 true 1 4; S_ true 0 true 2 1; S_ false 0 true 3 5]);
  (6753, [S_ false 0 true 0 3; S_ false 1 true 1 4; S_ true 0 true 2 1; S_ true 0 true 3 5]);
  (6755, [S_ false 0 true 0 3; S_ false 1 true 1 4; S_ true 1 true 2 4; S_ true 1 true 3 2]);
  (6757, [S_ true 0 true 0 1; S_ true 0 true 1 2; S_ true 2 true 2 6; S_ false 1 true 3 3]);
  (6759, [S_ true 0 true 0 1; S_ true 0 true 1 2; S_ true 2 true 2 6; S_ false 0 true 3 3]);
  (6761, [S_ true 0 true 0 1; S_ true 0 true 1 2; S_ true 2 true 2 6; S_ true 0 true 3 3]);
  (6763, [S_ true 0 true 0 1; S_ true 0 true 1 2; S_ true 2 true 2 6; S_ true 1 true 3 3]);
  (6765, [S_ true 0 true 0 1; S_ false 0 true 1 4; S_ true 2 true 2 3; S_ false 1 true 3 4]);
  (6767, [S_ true 0 true 0 1; S_ false 0 true 1 4; S_ true 2 true 2 3; S_ false 0 true 3 4]);
  (6769, [S_ true 0 true 0 1; S_ false 0 true 1 4; S_ true 2 true 2 3; S_ true 0 true 3 4]);
  (6771, [S_ true 0 true 0 1; S_ false 0 true 1 4; S_ true 2 true 2 3; S_ true 1 true 3 4]);
  (6773, [S_ false 0 true 0 3; S_ false 0 true 1 2; S_ false 1 true 2 4; S_ false 2 true 3 4]);
  (6775, [S_ false 0 true 0 4; S_ true 1 true 1 6; S_ true 2 false 0 7; S_ false 0 true 3 3]);
  (6777, [S_ false 0 true 0 4; S_ true 1 true 1 6; S_ true 2 false 0 7; S_ true 0 true 3 3]);
  (6779, [S_ true 0 true 0 2; S_ false 1 true 1 7; S_ true 0 true 0 1; S_ true 2 true 3 11]);
  (6781, [S_ true 0 true 0 1; S_ true 0 true 1 2; S_ true 0 true 2 2; S_ false 1 true 3 7]);
  (6783, [S_ true 0 true 0 1; S_ true 0 true 1 2; S_ true 0 true 2 2; S_ false 0 true 3 7]);
  (6785, [S_ true 0 true 0 1; S_ true 0 true 1 2; S_ true 0 true 2 2; S_ true 0 true 3 7]);
  (6787, [S_ false 0 true 0 5; S_ false 1 true 1 6; S_ true 2 false 0 8; S_ false 0 true 3 2]);
  (6789, [S_ false 0 true 0 5; S_ false 1 true 1 6; S_ true 2 false 0 8; S_ true 0 true 3 2]);
  (6791, [S_ true 0 true 0 4; S_ true 1 true 1 6; S_ true 2 false 0 8; S_ false 0 true 3 3]);
  (6793, [S_ true 0 true 0 4; S_ true 1 true 1 6; S_ true 2 false 0 8; S_ true 0 true 3 3]);
  (6795, [S_ false 0 true 0 4; S_ true 1 true 1 6; S_ false 1 true 2 2; S_ false 2 true 3 1]);
  (6797, [S_ false 0 true 0 3; S_ false 0 true 1 2; S_ false 2 true 2 6; S_ false 1 true 3 2]);
  (6799, [S_ false 0 true 0 3; S_ false 0 true 1 2; S_ false 1 true 2 4; S_ false 0 true 3 4]);
  (6801, [S_ false 0 true 0 3; S_ false 0 true 1 2; S_ false 1 true 2 4; S_ true 0 true 3 4]);
  (6803, [S_ false 0 true 0 3; S_ false 0 true 1 2; S_ false 2 true 2 6; S_ false 0 true 3 2]);
  (6805, [S_ false 0 true 0 3; S_ false 0 true 1 2; S_ false 2 true 2 6; S_ true 0 true 3 2]);
  (6807, [S_ false 0 true 0 3; S_ false 0 true 1 2; S_ false 1 true 2 4; S_ true 1 true 3 4]);
  (6809, [S_ false 0 true 0 3; S_ false 0 true 1 3; S_ false 1 true 2 2; S_ false 1 true 3 5]);
  (6811, [S_ false 0 true 0 3; S_ false 0 true 1 2; S_ false 2 true 2 6; S_ true 1 true 3 2]);
  (6813, [S_ false 0 true 0 3; S_ false 0 true 1 3; S_ false 2 true 2 5; S_ false 1 true 3 2]);
  (6815, [S_ false 0 true 0 3; S_ false 0 true 1 3; S_ false 1 true 2 2; S_ false 0 true 3 5]);
  (6817, [S_ false 0 true 0 3; S_ false 0 true 1 3; S_ false 1 true 2 2; S_ true 0 true 3 5]);
  (6819, [S_ false 0 true 0 3; S_ false 0 true 1 3; S_ false 2 true 2 5; S_ false 0 true 3 2]);
  (6821, [S_ false 0 true 0 3; S_ false 0 true 1 3; S_ false 2 true 2 5; S_ true 0 true 3 2]);
  (6823, [S_ false 0 true 0 3; S_ false 0 true 1 3; S_ false 1 true 2 2; S_ true 1 true 3 5]);
  (6825, [S_ false 0 true 0 3; S_ false 1 true 1 4; S_ true 2 true 2 6]);
  (6827, [S_ false 0 true 0 3; S_ false 0 true 1 3; S_ false 2 true 2 5; S_ true 1 true 3 2]);
  (6829, [S_ false 0 true 0 3; S_ false 0 true 1 2; S_ false 1 true 2 5; S_ false 2 true 3 3]);
  (6831, [S_ false 0 true 0 3; S_ false 1 true 1 4; S_ true 1 true 2 2; S_ false 0 true 3 4]);
  (6833, [S_ false 0 true 0 3; S_ false 1 true 1 4; S_ true 1 true 2 2; S_ true 0 true 3 4]);
  (6835, [S_ true 0 true 0 4; S_ true 1 true 1 7; S_ true 2 true 0 6; S_ false 2 true 3 2]);
  (6837, [S_ true 0 true 0 1; S_ false 0 true 1 5; S_ true 2 true 2 3; S_ false 1 true 3 3]);
  (6839, [S_ true 0 true 0 1; S_ false 0 true 1 5; S_ true 2 true 2 3; S_ false 0 true 3 3]);
  (6841, [S_ true 0 true 0 1; S_ false 0 true 1 5; S_ true 2 true 2 3; S_ true 0 true 3 3]);
  (6843, [S_ true 0 true 0 1; S_ false 0 true 1 5; S_ true 2 true 2 3; S_ true 1 true 3 3]);
  (6845, [S_ true 0 true 0 1; S_ false 1 true 1 6; S_ true 0 true 1 2; S_ true 2 true 3 9]);
  (6847, [S_ false 0 true 0 3; S_ false 0 true 1 2; S_ false 0 true 2 2; S_ false 0 true 3 6]);
  (6849, [S_ false 0 true 0 3; S_ false 0 true 1 2; S_ false 0 true 2 2; S_ true 0 true 3 6]);
  (6851, [S_ false 0 true 0 5; S_ false 1 true 1 7; S_ true 2 false 0 9; S_ true 0 true 3 1]);
  (6853, [S_ true 0 true 0 2; S_ false 1 true 1 6; S_ false 0 true 0 3; S_ false 2 true 3 10]);
  (6855, [S_ false 0 true 0 3; S_ false 0 true 1 2; S_ false 1 true 2 5; S_ false 0 true 3 3]);
  (6857, [S_ false 0 true 0 3; S_ false 0 true 1 2; S_ false 1 true 2 5; S_ true 0 true 3 3]);
  (6859, [S_ false 0 true 0 3; S_ false 0 true 1 2; S_ false 2 true 2 7; S_ true 0 true 3 1]);
  (6861, [S_ true 0 true 0 1; S_ true 0 true 1 2; S_ true 2 true 2 5; S_ false 1 true 3 4]);
  (6863, [S_ true 0 true 0 1; S_ true 0 true 1 2; S_ true 2 true 2 5; S_ false 0 true 3 4]);
  (6865, [S_ true 0 true 0 1; S_ true 0 true 1 2; S_ true 2 true 2 5; S_ true 0 true 3 4]);
  (6867, [S_ true 0 true 0 1; S_ true 0 true 1 2; S_ true 2 true 2 5; S_ true 1 true 3 4]);
  (6869, [S_ false 0 true 0 3; S_ false 0 true 1 2; S_ false 0 true 2 4; S_ false 2 true 3 4]);
  (6871, [S_ true 0 true 0 2; S_ true 1 true 1 5; S_ false 2 true 0 10; S_ false 0 true 3 3]);
  (6873, [S_ true 0 true 0 2; S_ true 1 true 1 5; S_ false 2 true 0 10; S_ true 0 true 3 3]);
  (6875, [S_ true 0 true 0 1; S_ false 0 true 1 6; S_ true 2 true 2 3; S_ false 0 true 3 2]);
  (6877, [S_ true 0 true 0 1; S_ false 0 true 1 6; S_ true 2 true 2 3; S_ true 0 true 3 2]);
  (6879, [S_ false 0 true 0 3; S_ false 0 true 1 2; S_ false 0 true 2 3; S_ false 0 true 3 5]);
  (6881, [S_ false 0 true 0 5; S_ true 1 false 0 2; S_ false 1 true 2 8]);
  (6883, [S_ false 0 true 0 3; S_ false 0 true 1 2; S_ false 1 true 2 6; S_ false 0 true 3 2]);
  (6885, [S_ true 0 true 0 1; S_ true 1 true 1 3; S_ false 2 true 2 8]);
  (6887, [S_ false 0 true 0 3; S_ false 1 true 1 5; S_ false 1 true 2 2; S_ false 0 true 3 3]);
  (6889, [S_ false 0 true 0 3; S_ false 1 true 1 5; S_ false 1 true 2 2; S_ true 0 true 3 3]);
  (6891, [S_ true 0 true 0 2; S_ true 1 true 1 6; S_ false 2 true 0 11; S_ false 0 true 3 2]);
  (6893, [S_ true 0 true 0 1; S_ false 0 true 1 7; S_ true 2 true 2 3; S_ false 0 true 3 1]);
  (6895, [S_ false 0 true 0 3; S_ false 0 true 1 2; S_ false 0 true 2 4; S_ false 0 true 3 4]);
  (6897, [S_ false 0 true 0 3; S_ false 0 true 1 2; S_ false 0 true 2 4; S_ true 0 true 3 4]);
  (6899, [S_ false 0 true 0 3; S_ false 0 true 1 2; S_ false 1 true 2 7; S_ true 0 true 3 1]);
  (6901, [S_ true 0 true 0 3; S_ false 0 true 1 6; S_ true 2 true 2 1; S_ true 0 true 3 2]);
  (6903, [S_ true 0 true 0 1; S_ false 0 true 1 8; S_ true 2 true 2 3]);
  (6905, [S_ false 0 true 0 3; S_ true 1 true 0 8; S_ false 2 true 1 10]);
  (6907, [S_ true 0 true 0 2; S_ false 1 true 0 5; S_ false 1 true 2 8]);
  (6909, [S_ true 0 true 0 1; S_ true 1 true 1 3; S_ false 1 true 2 8]);
  (6911, [S_ true 0 true 0 1; S_ true 1 true 1 3; S_ false 0 true 2 8]);
  (6913, [S_ true 0 true 0 1; S_ true 1 true 1 3; S_ true 0 true 2 8]);
  (6915, [S_ true 0 true 0 1; S_ true 1 true 1 3; S_ true 1 true 2 8]);
  (6917, [S_ true 0 true 0 2; S_ false 1 true 0 5; S_ true 1 true 2 8]);
  (6919, [S_ false 0 true 0 3; S_ false 1 true 0 8; S_ false 2 true 1 10]);
  (6921, [S_ true 0 true 0 1; S_ true 0 true 1 8; S_ true 2 true 2 3]);
  (6923, [S_ true 0 true 0 3; S_ true 0 true 1 6; S_ true 2 true 2 1; S_ false 0 true 3 2]);
  (6925, [S_ false 0 true 0 3; S_ false 0 true 1 2; S_ true 1 true 2 7; S_ false 0 true 3 1]);
  (6927, [S_ false 0 true 0 3; S_ false 0 true 1 2; S_ true 0 true 2 4; S_ false 0 true 3 4]);
  (6929, [S_ false 0 true 0 3; S_ false 0 true 1 2; S_ true 0 true 2 4; S_ true 0 true 3 4]);
  (6931, [S_ false 0 true 0 3; S_ false 1 true 1 5; S_ false 1 true 2 4; S_ true 0 true 3 1]);
  (6933, [S_ true 0 true 0 2; S_ false 1 true 1 6; S_ false 2 true 0 11; S_ true 0 true 3 2]);
  (6935, [S_ false 0 true 0 3; S_ false 1 true 1 5; S_ false 0 true 2 2; S_ false 0 true 3 3]);
  (6937, [S_ false 0 true 0 3; S_ true 1 true 1 5; S_ false 2 true 1 10]);
  (6939, [S_ true 0 true 0 1; S_ true 1 true 1 3; S_ true 2 true 2 8]);
  (6941, [S_ false 0 true 0 3; S_ false 1 true 1 5; S_ false 0 true 2 3; S_ true 0 true 3 2]);
  (6943, [S_ false 0 true 0 3; S_ true 0 true 1 5; S_ false 2 true 1 10]);
  (6945, [S_ false 0 true 0 3; S_ false 0 true 1 5; S_ false 2 true 1 10]);
  (6947, [S_ false 0 true 0 3; S_ false 1 true 1 5; S_ true 0 true 2 3; S_ false 0 true 3 2]);
  (6949, [S_ false 0 true 0 3; S_ false 1 true 1 5; S_ true 0 true 2 3; S_ true 0 true 3 2]);
  (6951, [S_ false 0 true 0 3; S_ false 1 true 1 5; S_ false 2 true 1 10]);
  (6953, [S_ false 0 true 0 3; S_ false 1 true 1 5; S_ true 0 true 2 2; S_ true 0 true 3 3]);
  (6955, [S_ false 0 true 0 3; S_ false 1 true 1 5; S_ true 0 true 2 3; S_ true 1 true 3 2]);
  (6957, [S_ false 0 true 0 3; S_ false 1 true 1 5; S_ true 1 true 2 4; S_ false 0 true 3 1]);
  (6959, [S_ false 0 true 0 3; S_ false 1 true 1 5; S_ true 0 true 2 1; S_ false 0 true 3 4]);
  (6961, [S_ false 0 true 0 3; S_ false 1 true 1 5; S_ true 0 true 2 1; S_ true 0 true 3 4]);
  (6963, [S_ true 0 true 0 1; S_ true 1 true 1 8; S_ true 1 true 1 7; S_ true 2 true 3 4]);
  (6965, [S_ false 0 true 0 3; S_ false 0 true 1 2; S_ true 2 true 2 7; S_ false 0 true 3 1]);
  (6967, [S_ false 0 true 0 3; S_ false 0 true 1 2; S_ true 1 true 2 5; S_ false 0 true 3 3]);
  (6969, [S_ false 0 true 0 3; S_ false 0 true 1 2; S_ true 1 true 2 5; S_ true 0 true 3 3]);
  (6971, [S_ false 0 true 0 3; S_ false 0 true 1 3; S_ false 1 true 2 6; S_ false 2 true 3 1]);
  (6973, [S_ false 0 true 0 5; S_ true 1 true 1 7; S_ true 2 false 0 9; S_ false 0 true 3 1]);
  (6975, [S_ false 0 true 0 3; S_ true 0 true 1 5; S_ false 2 true 2 5]);
  (6977, [S_ false 0 true 0 6; S_ true 1 false 0 3; S_ false 1 true 2 7]);
  (6979, [S_ true 0 true 0 1; S_ false 1 true 1 6; S_ false 0 true 0 3; S_ false 2 true 3 10]);
  (6981, [S_ false 0 true 0 3; S_ false 0 true 1 3; S_ false 0 true 2 5; S_ false 2 true 3 2]);
  (6983, [S_ false 0 true 0 3; S_ false 0 true 1 3; S_ false 1 true 2 4; S_ false 0 true 3 3]);
  (6985, [S_ true 0 true 0 3; S_ false 1 true 0 6; S_ false 2 true 2 7]);
  (6987, [S_ false 0 true 0 3; S_ false 0 true 1 3; S_ true 0 true 2 6; S_ false 2 true 3 1]);
  (6989, [S_ false 0 true 0 3; S_ false 0 true 1 3; S_ true 0 true 2 5; S_ false 2 true 3 2]);
  (6991, [S_ false 0 true 0 3; S_ false 0 true 1 4; S_ false 1 true 2 2; S_ false 0 true 3 4]);
  (6993, [S_ false 0 true 0 3; S_ false 0 true 1 4; S_ false 2 true 2 6]);
  (6995, [S_ true 0 true 0 3; S_ true 1 true 1 5; S_ false 2 true 0 11; S_ false 1 true 3 2]);
  (6997, [S_ false 0 true 0 3; S_ false 0 true 1 4; S_ true 0 true 2 4; S_ false 2 true 3 2]);
  (6999, [S_ false 0 true 0 3; S_ false 1 true 1 5; S_ true 1 true 2 2; S_ false 0 true 3 3]);
  (7001, [S_ false 0 true 0 3; S_ false 1 true 1 5; S_ true 1 true 2 2; S_ true 0 true 3 3]);
  (7003, [S_ true 0 true 0 3; S_ true 1 true 1 5; S_ false 2 true 0 11; S_ false 0 true 3 2]);
  (7005, [S_ false 0 true 0 3; S_ true 0 true 1 4; S_ false 2 true 2 5; S_ false 0 true 3 1]);
  (7007, [S_ false 0 true 0 3; S_ false 0 true 1 3; S_ false 0 true 2 2; S_ false 0 true 3 5]);
  (7009, [S_ false 0 true 0 3; S_ false 0 true 1 3; S_ false 0 true 2 2; S_ true 0 true 3 5]);
  (7011, [S_ false 0 true 0 3; S_ false 0 true 1 3; S_ false 1 true 2 5; S_ false 0 true 3 2]);
  (7013, [S_ false 0 true 0 3; S_ false 0 true 1 3; S_ false 1 true 2 5; S_ true 0 true 3 2]);
  (7015, [S_ false 0 true 0 3; S_ false 0 true 1 3; S_ false 0 true 2 2; S_ true 1 true 3 5]);
  (7017, [S_ false 0 true 0 3; S_ false 0 true 1 3; S_ false 0 true 2 3; S_ false 1 true 3 4]);
  (7019, [S_ false 0 true 0 3; S_ false 0 true 1 2; S_ true 2 true 2 6; S_ false 0 true 3 2]);
  (7021, [S_ false 0 true 0 3; S_ false 0 true 1 2; S_ true 2 true 2 6; S_ true 0 true 3 2]);
  (7023, [S_ false 0 true 0 3; S_ false 0 true 1 3; S_ false 0 true 2 3; S_ false 0 true 3 4]);
  (7025, [S_ false 0 true 0 3; S_ false 0 true 1 3; S_ false 0 true 2 3; S_ true 0 true 3 4]);
  (7027, [S_ false 0 true 0 3; S_ false 0 true 1 3; S_ false 1 true 2 6; S_ true 0 true 3 1]);
  (7029, [S_ false 0 true 0 3; S_ false 1 true 1 6; S_ false 1 true 2 2; S_ true 0 true 3 2]);
  (7031, [S_ true 0 true 0 3; S_ false 1 true 0 6; S_ false 1 true 2 7]);
  (7033, [S_ false 0 true 0 3; S_ true 1 true 0 7; S_ false 2 true 1 10]);
  (7035, [S_ false 0 true 0 3; S_ false 0 true 1 3; S_ false 0 true 2 5; S_ false 0 true 3 2]);
  (7037, [S_ false 0 true 0 3; S_ false 0 true 1 3; S_ false 0 true 2 5; S_ true 0 true 3 2]);
  (7039, [S_ true 0 true 0 3; S_ false 1 true 0 6; S_ false 0 true 2 7]);
  (7041, [S_ true 0 true 0 3; S_ false 1 true 0 6; S_ true 0 true 2 7]);
  (7043, [S_ false 0 true 0 3; S_ false 0 true 1 3; S_ true 0 true 2 5; S_ false 0 true 3 2]);
  (7045, [S_ false 0 true 0 3; S_ false 0 true 1 3; S_ true 0 true 2 5; S_ true 0 true 3 2]);
  (7047, [S_ false 0 true 0 3; S_ false 1 true 0 7; S_ false 2 true 1 10]);
  (7049, [S_ true 0 true 0 3; S_ false 1 true 0 6; S_ true 1 true 2 7]);
  (7051, [S_ false 0 true 0 3; S_ false 1 true 1 6; S_ false 0 true 2 2; S_ false 0 true 3 2]);
  (7053, [S_ false 0 true 0 3; S_ false 1 true 1 6; S_ false 0 true 2 2; S_ true 0 true 3 2]);
  (7055, [S_ false 0 true 0 3; S_ true 0 true 1 4; S_ false 2 true 1 10]);
  (7057, [S_ false 0 true 0 3; S_ false 0 true 1 4; S_ false 2 true 1 10]);
  (7059, [S_ false 0 true 0 3; S_ false 1 true 1 6; S_ true 0 true 2 2; S_ false 0 true 3 2]);
  (7061, [S_ false 0 true 0 3; S_ false 1 true 1 6; S_ true 0 true 2 2; S_ true 0 true 3 2]);
  (7063, [S_ false 0 true 0 3; S_ false 1 true 1 4; S_ false 2 true 1 10]);
  (7065, [S_ false 0 true 0 3; S_ false 1 true 1 6; S_ true 0 true 2 1; S_ true 0 true 3 3]);
  (7067, [S_ false 0 true 0 3; S_ false 0 true 1 3; S_ true 1 true 2 5; S_ false 0 true 3 2]);
  (7069, [S_ false 0 true 0 3; S_ false 0 true 1 3; S_ true 1 true 2 5; S_ true 0 true 3 2]);
  (7071, [S_ false 0 true 0 3; S_ false 0 true 1 3; S_ true 0 true 2 2; S_ false 0 true 3 5]);
  (7073, [S_ false 0 true 0 3; S_ false 0 true 1 3; S_ true 0 true 2 2; S_ true 0 true 3 5]);
  (7075, [S_ false 0 true 0 3; S_ false 0 true 1 4; S_ false 1 true 2 4; S_ false 0 true 3 2]);
  (7077, [S_ false 0 true 0 3; S_ false 0 true 1 4; S_ false 1 true 2 4; S_ true 0 true 3 2]);
  (7079, [S_ false 0 true 0 3; S_ false 0 true 1 5; S_ false 1 true 2 2; S_ false 0 true 3 3]);
  (7081, [S_ false 0 true 0 3; S_ false 0 true 1 5; S_ false 1 true 2 2; S_ true 0 true 3 3]);
  (7083, [S_ false 0 true 0 3; S_ false 1 true 1 6; S_ true 1 true 2 2; S_ false 0 true 3 2]);
  (7085, [S_ false 0 true 0 3; S_ false 1 true 1 6; S_ true 1 true 2 2; S_ true 0 true 3 2]);
  (7087, [S_ true 0 true 0 4; S_ false 1 true 0 7; S_ false 1 true 2 6]);
  (7089, [S_ false 0 true 0 3; S_ false 0 true 1 4; S_ false 0 true 2 2; S_ true 0 true 3 4]);
  (7091, [S_ false 0 true 0 3; S_ false 0 true 1 4; S_ false 1 true 2 5; S_ true 0 true 3 1]);
  (7093, [S_ false 0 true 0 3; S_ false 0 true 1 4; S_ false 0 true 2 4; S_ false 1 true 3 2]);
  (7095, [S_ true 0 true 0 3; S_ false 1 true 0 6; S_ true 2 true 2 7]);
  (7097, [S_ false 0 true 0 3; S_ true 1 true 0 6; S_ false 2 true 1 10]);
  (7099, [S_ false 0 true 0 3; S_ false 0 true 1 4; S_ false 0 true 2 4; S_ false 0 true 3 2]);
  (7101, [S_ false 0 true 0 3; S_ false 0 true 1 4; S_ false 0 true 2 4; S_ true 0 true 3 2]);
  (7103, [S_ false 0 true 0 3; S_ true 0 true 0 6; S_ false 2 true 1 10]);
  (7105, [S_ true 0 true 0 3; S_ false 1 true 0 10; S_ false 2 true 2 3]);
  (7107, [S_ false 0 true 0 3; S_ false 0 true 1 4; S_ true 0 true 2 4; S_ false 0 true 3 2]);
  (7109, [S_ false 0 true 0 3; S_ false 0 true 1 4; S_ true 0 true 2 4; S_ true 0 true 3 2]);
  (7111, [S_ false 0 true 0 3; S_ false 1 true 0 6; S_ false 2 true 1 10]);
  (7113, [S_ false 0 true 0 3; S_ false 0 true 1 3; S_ false 2 true 1 10]);
  (7115, [S_ false 0 true 0 3; S_ false 1 true 1 7; S_ true 0 true 2 1; S_ false 0 true 3 2]);
  (7117, [S_ false 0 true 0 3; S_ false 1 true 1 7; S_ true 0 true 2 1; S_ true 0 true 3 2]);
  (7119, [S_ false 0 true 0 3; S_ false 1 true 0 10; S_ false 2 true 2 3]);
  (7121, [S_ true 0 true 0 4; S_ false 1 true 0 7; S_ true 1 true 2 6]);
  (7123, [S_ false 0 true 0 3; S_ false 0 true 1 5; S_ false 1 true 2 4; S_ true 0 true 3 1]);
  (7125, [S_ false 0 true 0 3; S_ false 0 true 1 6; S_ false 1 true 2 2; S_ true 0 true 3 2]);
  (7127, [S_ false 0 true 0 3; S_ false 0 true 1 5; S_ false 0 true 2 2; S_ false 0 true 3 3]);
  (7129, [S_ false 0 true 0 3; S_ true 1 true 0 5; S_ false 2 true 1 10]);
  (7131, [S_ false 0 true 0 3; S_ false 0 true 1 5; S_ false 0 true 2 3; S_ false 0 true 3 2]);
  (7133, [S_ true 0 true 0 2; S_ false 1 true 0 10; S_ false 2 true 2 3]);
  (7135, [S_ false 0 true 0 3; S_ true 0 true 0 5; S_ false 2 true 1 10]);
  (7137, [S_ false 0 true 0 3; S_ false 0 true 0 5; S_ false 2 true 1 10]);
  (7139, [S_ false 0 true 0 3; S_ true 0 true 1 2; S_ false 2 true 1 10]);
  (7141, [S_ false 0 true 0 3; S_ false 0 true 1 2; S_ false 2 true 1 10]);
  (7143, [S_ false 0 true 0 3; S_ false 1 true 0 5; S_ false 2 true 1 10]);
  (7145, [S_ false 0 true 0 3; S_ true 1 true 0 4; S_ false 2 true 1 10]);
  (7147, [S_ true 0 true 0 1; S_ false 1 true 0 10; S_ false 2 true 2 3]);
  (7149, [S_ false 0 true 0 3; S_ false 0 true 1 6; S_ false 0 true 2 2; S_ true 0 true 3 2]);
  (7151, [S_ false 0 true 0 3; S_ true 0 true 0 4; S_ false 2 true 1 10]);
  (7153, [S_ false 0 true 0 3; S_ true 1 true 0 3; S_ false 2 true 1 10]);
  (7155, [S_ false 0 true 0 3; S_ false 0 true 1 1; S_ false 2 true 1 10]);
  (7157, [S_ false 0 true 0 3; S_ true 1 true 0 2; S_ false 2 true 1 10]);
  (7159, [S_ true 0 true 0 3; S_ true 1 false 0 1; S_ false 1 true 2 10]);
  (7161, [S_ false 0 true 0 3; S_ false 1 true 1 10]);
  (7163, [S_ true 0 true 0 2; S_ true 1 true 0 1; S_ false 1 true 2 10]);
  (7165, [S_ true 0 true 0 1; S_ true 1 true 0 2; S_ false 1 true 2 10]);
  (7167, [S_ false 0 true 0 3; S_ false 0 true 1 10])].

Definition asc13_chunk_6 : asc_map := [
  (7169, [S_ false 0 true 0 3; S_ true 0 true 1 10]);
  (7171, [S_ true 0 true 0 1; S_ true 1 true 0 2; S_ true 1 true 2 10]);
  (7173, [S_ true 0 true 0 2; S_ true 1 true 0 1; S_ true 1 true 2 10]);
  (7175, [S_ false 0 true 0 3; S_ true 1 true 1 10]);
  (7177, [S_ true 0 true 0 3; S_ true 1 false 0 1; S_ true 1 true 2 10]);
  (7179, [S_ false 0 true 0 3; S_ true 1 true 0 2; S_ true 2 true 1 10]);
  (7181, [S_ false 0 true 0 3; S_ false 0 true 1 1; S_ true 2 true 1 10]);
  (7183, [S_ false 0 true 0 3; S_ true 1 true 0 3; S_ true 2 true 1 10]);
  (7185, [S_ false 0 true 0 3; S_ true 0 true 0 4; S_ true 2 true 1 10]);
  (7187, [S_ false 0 true 0 3; S_ true 0 true 1 6; S_ true 0 true 2 2; S_ false 0 true 3 2]);
  (7189, [S_ true 0 true 0 1; S_ true 1 true 0 10; S_ false 2 true 2 3]);
  (7191, [S_ false 0 true 0 3; S_ true 1 true 0 4; S_ true 2 true 1 10]);
  (7193, [S_ false 0 true 0 3; S_ false 1 true 0 5; S_ true 2 true 1 10]);
  (7195, [S_ false 0 true 0 3; S_ false 0 true 1 2; S_ true 2 true 1 10]);
  (7197, [S_ false 0 true 0 3; S_ true 0 true 1 2; S_ true 2 true 1 10]);
  (7199, [S_ false 0 true 0 3; S_ false 0 true 0 5; S_ true 2 true 1 10]);
  (7201, [S_ false 0 true 0 3; S_ true 0 true 0 5; S_ true 2 true 1 10]);
  (7203, [S_ true 0 true 0 2; S_ true 1 true 0 10; S_ false 2 true 2 3]);
  (7205, [S_ false 0 true 0 3; S_ true 0 true 1 5; S_ true 0 true 2 3; S_ true 0 true 3 2]);
  (7207, [S_ false 0 true 0 3; S_ true 1 true 0 5; S_ true 2 true 1 10]);
  (7209, [S_ false 0 true 0 3; S_ true 0 true 1 5; S_ true 0 true 2 2; S_ true 0 true 3 3]);
  (7211, [S_ false 0 true 0 3; S_ true 0 true 1 6; S_ true 1 true 2 2; S_ false 0 true 3 2]);
  (7213, [S_ false 0 true 0 3; S_ true 0 true 1 5; S_ true 1 true 2 4; S_ false 0 true 3 1]);
  (7215, [S_ false 0 true 0 3; S_ false 0 true 1 4; S_ true 2 true 2 6]);
  (7217, [S_ false 0 true 0 3; S_ true 1 true 0 10; S_ false 2 true 2 3]);
  (7219, [S_ false 0 true 0 3; S_ true 1 true 1 7; S_ false 0 true 2 1; S_ false 0 true 3 2]);
  (7221, [S_ false 0 true 0 3; S_ true 1 true 1 7; S_ false 0 true 2 1; S_ true 0 true 3 2]);
  (7223, [S_ false 0 true 0 3; S_ false 0 true 1 3; S_ true 2 true 1 10]);
  (7225, [S_ false 0 true 0 3; S_ false 1 true 0 6; S_ true 2 true 1 10]);
  (7227, [S_ false 0 true 0 3; S_ true 0 true 1 4; S_ false 0 true 2 4; S_ false 0 true 3 2]);
  (7229, [S_ false 0 true 0 3; S_ true 0 true 1 4; S_ false 0 true 2 4; S_ true 0 true 3 2]);
  (7231, [S_ true 0 true 0 3; S_ true 1 true 0 10; S_ false 2 true 2 3]);
  (7233, [S_ false 0 true 0 3; S_ true 0 true 0 6; S_ true 2 true 1 10]);
  (7235, [S_ false 0 true 0 3; S_ true 0 true 1 4; S_ true 0 true 2 4; S_ false 0 true 3 2]);
  (7237, [S_ false 0 true 0 3; S_ true 0 true 1 4; S_ true 0 true 2 4; S_ true 0 true 3 2]);
  (7239, [S_ false 0 true 0 3; S_ true 1 true 0 6; S_ true 2 true 1 10]);
  (7241, [S_ false 0 true 0 3; S_ true 0 true 1 4; S_ true 0 true 2 3; S_ true 0 true 3 3]);
  (7243, [S_ false 0 true 0 3; S_ true 0 true 1 4; S_ true 0 true 2 4; S_ true 1 true 3 2]);
  (7245, [S_ false 0 true 0 3; S_ true 0 true 1 4; S_ true 1 true 2 5; S_ false 0 true 3 1]);
  (7247, [S_ false 0 true 0 4; S_ false 1 true 0 7; S_ true 1 true 2 6]);
  (7249, [S_ false 0 true 0 3; S_ true 0 true 1 4; S_ true 0 true 2 2; S_ true 0 true 3 4]);
  (7251, [S_ false 0 true 0 3; S_ true 1 true 1 6; S_ false 1 true 2 2; S_ false 0 true 3 2]);
  (7253, [S_ false 0 true 0 3; S_ true 1 true 1 6; S_ false 1 true 2 2; S_ true 0 true 3 2]);
  (7255, [S_ false 0 true 0 3; S_ true 0 true 1 5; S_ true 1 true 2 2; S_ false 0 true 3 3]);
  (7257, [S_ false 0 true 0 3; S_ true 0 true 1 5; S_ true 1 true 2 2; S_ true 0 true 3 3]);
  (7259, [S_ false 0 true 0 3; S_ true 0 true 1 4; S_ true 1 true 2 4; S_ false 0 true 3 2]);
  (7261, [S_ false 0 true 0 3; S_ true 0 true 1 4; S_ true 1 true 2 4; S_ true 0 true 3 2]);
  (7263, [S_ false 0 true 0 3; S_ true 0 true 1 3; S_ false 0 true 2 2; S_ false 0 true 3 5]);
  (7265, [S_ false 0 true 0 3; S_ true 0 true 1 3; S_ false 0 true 2 2; S_ true 0 true 3 5]);
  (7267, [S_ false 0 true 0 3; S_ true 0 true 1 3; S_ false 1 true 2 5; S_ false 0 true 3 2]);
  (7269, [S_ false 0 true 0 3; S_ true 0 true 1 3; S_ false 1 true 2 5; S_ true 0 true 3 2]);
  (7271, [S_ false 0 true 0 3; S_ true 1 true 1 6; S_ false 0 true 2 1; S_ false 0 true 3 3]);
  (7273, [S_ false 0 true 0 3; S_ false 1 true 1 4; S_ true 2 true 1 10]);
  (7275, [S_ false 0 true 0 3; S_ true 1 true 1 6; S_ false 0 true 2 2; S_ false 0 true 3 2]);
  (7277, [S_ false 0 true 0 3; S_ true 1 true 1 6; S_ false 0 true 2 2; S_ true 0 true 3 2]);
  (7279, [S_ false 0 true 0 3; S_ false 0 true 1 4; S_ true 2 true 1 10]);
  (7281, [S_ false 0 true 0 3; S_ true 0 true 1 4; S_ true 2 true 1 10]);
  (7283, [S_ false 0 true 0 3; S_ true 1 true 1 6; S_ true 0 true 2 2; S_ false 0 true 3 2]);
  (7285, [S_ false 0 true 0 3; S_ true 1 true 1 6; S_ true 0 true 2 2; S_ true 0 true 3 2]);
  (7287, [S_ false 0 true 0 3; S_ true 1 true 1 4; S_ true 2 true 1 10]);
  (7289, [S_ false 0 true 0 3; S_ false 1 true 0 6; S_ false 1 true 2 7]);
  (7291, [S_ false 0 true 0 3; S_ true 0 true 1 3; S_ false 0 true 2 5; S_ false 0 true 3 2]);
  (7293, [S_ false 0 true 0 3; S_ true 0 true 1 3; S_ false 0 true 2 5; S_ true 0 true 3 2]);
  (7295, [S_ false 0 true 0 3; S_ false 1 true 0 6; S_ false 0 true 2 7]);
  (7297, [S_ false 0 true 0 3; S_ false 1 true 0 6; S_ true 0 true 2 7]);
  (7299, [S_ false 0 true 0 3; S_ true 0 true 1 3; S_ true 0 true 2 5; S_ false 0 true 3 2]);
  (7301, [S_ false 0 true 0 3; S_ true 0 true 1 3; S_ true 0 true 2 5; S_ true 0 true 3 2]);
  (7303, [S_ false 0 true 0 3; S_ false 1 true 0 6; S_ true 1 true 2 7]);
  (7305, [S_ false 0 true 0 3; S_ true 0 true 1 3; S_ true 0 true 2 4; S_ true 0 true 3 3]);
  (7307, [S_ false 0 true 0 3; S_ true 1 true 1 6; S_ true 1 true 2 2; S_ false 0 true 3 2]);
  (7309, [S_ false 0 true 0 3; S_ true 0 true 1 3; S_ true 1 true 2 6; S_ false 0 true 3 1]);
  (7311, [S_ false 0 true 0 3; S_ true 0 true 1 3; S_ true 0 true 2 3; S_ false 0 true 3 4]);
  (7313, [S_ false 0 true 0 3; S_ true 0 true 1 3; S_ true 0 true 2 3; S_ true 0 true 3 4]);
  (7315, [S_ false 0 true 0 4; S_ false 0 true 1 2; S_ false 2 true 2 5; S_ false 0 true 3 2]);
  (7317, [S_ false 0 true 0 4; S_ false 0 true 1 2; S_ false 2 true 2 5; S_ true 0 true 3 2]);
  (7319, [S_ false 0 true 0 4; S_ false 1 true 1 5; S_ false 1 true 2 1; S_ false 0 true 3 3]);
  (7321, [S_ false 0 true 0 4; S_ false 1 true 1 5; S_ false 1 true 2 1; S_ true 0 true 3 3]);
  (7323, [S_ false 0 true 0 3; S_ true 0 true 1 3; S_ true 1 true 2 5; S_ false 0 true 3 2]);
  (7325, [S_ false 0 true 0 3; S_ true 0 true 1 3; S_ true 1 true 2 5; S_ true 0 true 3 2]);
  (7327, [S_ false 0 true 0 3; S_ true 0 true 1 3; S_ true 0 true 2 2; S_ false 0 true 3 5]);
  (7329, [S_ false 0 true 0 3; S_ true 0 true 1 3; S_ true 0 true 2 2; S_ true 0 true 3 5]);
  (7331, [S_ false 0 true 0 3; S_ true 0 true 1 3; S_ true 1 true 2 5; S_ true 1 true 3 2]);
  (7333, [S_ false 0 true 0 3; S_ false 0 true 1 4; S_ true 2 true 2 5; S_ true 1 true 3 1]);
  (7335, [S_ false 0 true 0 3; S_ true 1 true 1 5; S_ false 1 true 2 2; S_ false 0 true 3 3]);
  (7337, [S_ false 0 true 0 3; S_ true 1 true 1 5; S_ false 1 true 2 2; S_ true 0 true 3 3]);
  (7339, [S_ false 0 true 0 3; S_ true 0 true 1 2; S_ false 1 true 2 5; S_ false 2 true 3 3]);
  (7341, [S_ false 0 true 0 3; S_ true 0 true 1 4; S_ false 0 true 2 4; S_ true 2 true 3 2]);
  (7343, [S_ false 0 true 0 3; S_ true 0 true 1 4; S_ true 1 true 2 2; S_ false 0 true 3 4]);
  (7345, [S_ false 0 true 0 3; S_ true 0 true 1 4; S_ true 2 true 2 6]);
  (7347, [S_ false 0 true 0 3; S_ true 0 true 1 4; S_ true 0 true 2 5; S_ true 2 true 3 1]);
  (7349, [S_ false 0 true 0 4; S_ false 1 true 1 7; S_ true 2 false 0 6; S_ false 1 true 3 2]);
  (7351, [S_ false 0 true 0 3; S_ true 0 true 1 3; S_ true 1 true 2 4; S_ false 0 true 3 3]);
  (7353, [S_ false 0 true 0 3; S_ false 1 true 0 6; S_ true 2 true 2 7]);
  (7355, [S_ false 0 true 0 3; S_ true 0 true 1 3; S_ true 0 true 2 6; S_ true 2 true 3 1]);
  (7357, [S_ true 0 true 0 5; S_ false 1 true 1 7; S_ true 2 false 0 9; S_ false 0 true 3 1]);
  (7359, [S_ false 0 true 0 3; S_ false 0 true 1 5; S_ true 2 true 2 5]);
  (7361, [S_ true 0 true 0 6; S_ true 1 false 0 3; S_ true 1 true 2 7]);
  (7363, [S_ false 0 true 0 4; S_ false 1 true 1 7; S_ true 2 false 0 6; S_ false 0 true 3 2]);
  (7365, [S_ false 0 true 0 3; S_ true 0 true 1 2; S_ false 2 true 2 7; S_ false 0 true 3 1]);
  (7367, [S_ false 0 true 0 3; S_ true 0 true 1 2; S_ false 1 true 2 5; S_ false 0 true 3 3]);
  (7369, [S_ false 0 true 0 3; S_ true 0 true 1 2; S_ false 1 true 2 5; S_ true 0 true 3 3]);
  (7371, [S_ false 0 true 0 3; S_ true 1 true 1 5; S_ false 1 true 2 4; S_ false 1 true 3 1]);
  (7373, [S_ false 0 true 0 3; S_ true 0 true 1 4; S_ true 1 true 2 4; S_ true 2 true 3 2]);
  (7375, [S_ false 0 true 0 3; S_ true 1 true 1 5; S_ false 0 true 2 1; S_ false 0 true 3 4]);
  (7377, [S_ false 0 true 0 3; S_ true 1 true 1 5; S_ false 0 true 2 1; S_ true 0 true 3 4]);
  (7379, [S_ false 0 true 0 3; S_ true 1 true 1 5; S_ false 1 true 2 4; S_ true 0 true 3 1]);
  (7381, [S_ false 0 true 0 4; S_ false 1 true 1 5; S_ false 1 true 2 2; S_ true 0 true 3 2]);
  (7383, [S_ false 0 true 0 3; S_ true 1 true 1 5; S_ false 0 true 2 2; S_ false 0 true 3 3]);
  (7385, [S_ false 0 true 0 3; S_ true 1 true 1 5; S_ false 1 true 2 5]);
  (7387, [S_ false 0 true 0 3; S_ true 1 true 1 5; S_ false 0 true 2 3; S_ false 0 true 3 2]);
  (7389, [S_ false 0 true 0 3; S_ true 1 true 1 5; S_ false 0 true 2 3; S_ true 0 true 3 2]);
  (7391, [S_ false 0 true 0 3; S_ false 0 true 1 5; S_ true 2 true 1 10]);
  (7393, [S_ false 0 true 0 3; S_ true 0 true 1 5; S_ true 2 true 1 10]);
  (7395, [S_ true 0 true 0 1; S_ false 1 true 0 5; S_ false 2 true 2 8]);
  (7397, [S_ false 0 true 0 3; S_ true 1 true 1 5; S_ true 0 true 2 3; S_ true 0 true 3 2]);
  (7399, [S_ false 0 true 0 3; S_ true 1 true 1 5; S_ true 2 true 1 10]);
  (7401, [S_ false 0 true 0 3; S_ true 1 true 1 5; S_ true 0 true 2 2; S_ true 0 true 3 3]);
  (7403, [S_ false 0 true 0 3; S_ true 1 true 1 5; S_ true 0 true 2 3; S_ true 1 true 3 2]);
  (7405, [S_ false 0 true 0 3; S_ true 1 true 1 5; S_ true 1 true 2 4; S_ false 0 true 3 1]);
  (7407, [S_ false 0 true 0 3; S_ true 0 true 1 2; S_ false 0 true 2 4; S_ false 0 true 3 4]);
  (7409, [S_ true 0 true 0 4; S_ false 1 true 0 8; S_ false 2 true 2 5]);
  (7411, [S_ false 0 true 0 3; S_ true 0 true 1 2; S_ false 1 true 2 7; S_ true 0 true 3 1]);
  (7413, [S_ true 0 true 0 1; S_ true 1 true 1 6; S_ false 2 true 0 11; S_ true 0 true 3 2]);
  (7415, [S_ false 0 true 0 3; S_ true 0 true 1 2; S_ false 0 true 2 5; S_ false 0 true 3 3]);
  (7417, [S_ false 0 true 0 3; S_ false 1 true 0 8; S_ true 2 true 1 10]);
  (7419, [S_ false 0 true 0 3; S_ true 0 true 1 2; S_ false 0 true 2 6; S_ false 0 true 3 2]);
  (7421, [S_ true 0 true 0 1; S_ false 1 true 0 5; S_ false 1 true 2 8]);
  (7423, [S_ true 0 true 0 1; S_ false 1 true 0 5; S_ false 0 true 2 8]);
  (7425, [S_ true 0 true 0 1; S_ false 1 true 0 5; S_ true 0 true 2 8]);
  (7427, [S_ true 0 true 0 1; S_ false 1 true 0 5; S_ true 1 true 2 8]);
  (7429, [S_ false 0 true 0 3; S_ true 0 true 1 2; S_ true 0 true 2 6; S_ true 0 true 3 2]);
  (7431, [S_ false 0 true 0 3; S_ true 1 true 0 8; S_ true 2 true 1 10]);
  (7433, [S_ false 0 true 0 3; S_ true 0 true 1 2; S_ true 0 true 2 5; S_ true 0 true 3 3]);
  (7435, [S_ false 0 true 0 4; S_ false 1 true 1 5; S_ false 0 true 2 2; S_ false 0 true 3 2]);
  (7437, [S_ false 0 true 0 4; S_ false 1 true 1 5; S_ false 0 true 2 2; S_ true 0 true 3 2]);
  (7439, [S_ false 0 true 0 4; S_ false 1 true 0 8; S_ false 2 true 1 9]);
  (7441, [S_ false 0 true 0 4; S_ false 0 true 1 4; S_ false 2 true 1 9]);
  (7443, [S_ false 0 true 0 4; S_ false 1 true 1 5; S_ true 0 true 2 2; S_ false 0 true 3 2]);
  (7445, [S_ false 0 true 0 4; S_ false 1 true 1 5; S_ true 0 true 2 2; S_ true 0 true 3 2]);
  (7447, [S_ false 0 true 0 4; S_ false 1 true 1 5; S_ true 0 true 2 1; S_ false 0 true 3 3]);
  (7449, [S_ false 0 true 0 4; S_ false 1 true 1 5; S_ true 0 true 2 1; S_ true 0 true 3 3]);
  (7451, [S_ false 0 true 0 3; S_ true 0 true 1 2; S_ true 1 true 2 6; S_ false 0 true 3 2]);
  (7453, [S_ true 0 true 0 1; S_ false 1 true 0 5; S_ true 2 true 2 8]);
  (7455, [S_ false 0 true 0 4; S_ false 1 true 0 9; S_ false 2 true 2 4]);
  (7457, [S_ true 0 true 0 5; S_ true 1 false 0 2; S_ true 1 true 2 8]);
  (7459, [S_ false 0 true 0 3; S_ true 0 true 1 4; S_ true 2 true 2 5; S_ true 0 true 3 1]);
  (7461, [S_ false 0 true 0 3; S_ true 0 true 1 2; S_ true 0 true 2 5; S_ true 2 true 3 3]);
  (7463, [S_ false 0 true 0 3; S_ true 0 true 1 2; S_ true 0 true 2 3; S_ true 1 true 3 5]);
  (7465, [S_ false 0 true 0 3; S_ true 0 true 1 4; S_ true 2 true 2 5; S_ true 1 true 3 1]);
  (7467, [S_ false 0 true 0 3; S_ true 0 true 1 3; S_ true 2 true 2 5; S_ false 2 true 3 2]);
  (7469, [S_ false 0 true 0 4; S_ false 1 true 1 5; S_ true 1 true 2 3; S_ false 0 true 3 1]);
  (7471, [S_ false 0 true 0 4; S_ false 1 true 0 8; S_ false 2 true 2 5]);
  (7473, [S_ false 0 true 0 4; S_ true 0 true 1 4; S_ false 1 true 2 1; S_ true 0 true 3 4]);
  (7475, [S_ false 0 true 0 4; S_ true 0 true 1 4; S_ true 0 true 2 3; S_ false 2 true 3 2]);
  (7477, [S_ false 0 true 0 4; S_ false 0 true 1 2; S_ false 1 true 2 5; S_ false 1 true 3 2]);
  (7479, [S_ false 0 true 0 3; S_ true 0 true 1 2; S_ true 1 true 2 5; S_ false 0 true 3 3]);
  (7481, [S_ false 0 true 0 3; S_ true 0 true 1 2; S_ true 1 true 2 5; S_ true 0 true 3 3]);
  (7483, [S_ false 0 true 0 3; S_ true 0 true 1 2; S_ true 2 true 2 7; S_ true 0 true 3 1]);
  (7485, [S_ false 0 true 0 4; S_ true 1 true 1 7; S_ true 2 false 0 6; S_ true 0 true 3 2]);
  (7487, [S_ false 0 true 0 3; S_ true 0 true 1 2; S_ true 0 true 2 2; S_ false 0 true 3 6]);
  (7489, [S_ false 0 true 0 6; S_ true 1 false 0 2; S_ false 1 true 2 7]);
  (7491, [S_ false 0 true 0 4; S_ false 0 true 1 2; S_ false 1 true 2 5; S_ false 0 true 3 2]);
  (7493, [S_ true 0 true 0 2; S_ false 1 true 0 6; S_ false 2 true 2 7]);
  (7495, [S_ false 0 true 0 4; S_ false 0 true 1 3; S_ false 1 true 2 3; S_ false 0 true 3 3]);
  (7497, [S_ true 0 true 0 3; S_ false 1 true 0 7; S_ false 2 true 2 6]);
  (7499, [S_ false 0 true 0 4; S_ false 1 true 1 5; S_ true 1 true 2 2; S_ false 0 true 3 2]);
  (7501, [S_ false 0 true 0 4; S_ false 1 true 1 5; S_ true 1 true 2 2; S_ true 0 true 3 2]);
  (7503, [S_ false 0 true 0 3; S_ true 1 true 1 5; S_ true 1 true 2 1; S_ false 0 true 3 4]);
  (7505, [S_ false 0 true 0 3; S_ true 1 true 1 5; S_ true 1 true 2 1; S_ true 0 true 3 4]);
  (7507, [S_ true 0 true 0 2; S_ true 1 true 1 4; S_ false 2 true 0 10; S_ false 1 true 3 3]);
  (7509, [S_ false 0 true 0 3; S_ true 0 true 1 2; S_ true 1 true 2 5; S_ true 2 true 3 3]);
  (7511, [S_ true 0 true 0 2; S_ true 1 true 1 4; S_ false 2 true 0 10; S_ false 0 true 3 3]);
  (7513, [S_ true 0 true 0 2; S_ true 1 true 1 4; S_ false 2 true 0 10; S_ true 0 true 3 3]);
  (7515, [S_ false 0 true 0 4; S_ false 1 true 1 6; S_ false 1 true 2 2; S_ false 1 true 3 1]);
  (7517, [S_ true 0 true 0 2; S_ true 1 true 1 4; S_ false 2 true 0 10; S_ true 1 true 3 3]);
  (7519, [S_ false 0 true 0 4; S_ false 0 true 1 2; S_ false 0 true 2 2; S_ false 0 true 3 5]);
  (7521, [S_ false 0 true 0 4; S_ false 0 true 1 2; S_ false 0 true 2 2; S_ true 0 true 3 5]);
  (7523, [S_ false 0 true 0 4; S_ false 0 true 1 2; S_ false 1 true 2 6; S_ true 0 true 3 1]);
  (7525, [S_ false 0 true 0 3; S_ true 0 true 1 3; S_ true 2 true 2 5; S_ true 0 true 3 2]);
  (7527, [S_ false 0 true 0 4; S_ false 0 true 1 4; S_ false 1 true 2 2; S_ false 0 true 3 3]);
  (7529, [S_ false 0 true 0 4; S_ false 0 true 1 4; S_ false 1 true 2 2; S_ true 0 true 3 3]);
  (7531, [S_ false 0 true 0 4; S_ false 1 true 1 6; S_ false 1 true 2 2; S_ true 0 true 3 1]);
  (7533, [S_ true 0 true 0 2; S_ true 1 true 1 5; S_ false 2 true 0 11; S_ true 0 true 3 2]);
  (7535, [S_ false 0 true 0 4; S_ false 0 true 1 2; S_ false 0 true 2 3; S_ false 0 true 3 4]);
  (7537, [S_ false 0 true 0 4; S_ true 1 true 0 7; S_ false 2 true 1 9]);
  (7539, [S_ false 0 true 0 3; S_ true 0 true 1 2; S_ true 2 true 2 6; S_ false 0 true 3 2]);
  (7541, [S_ false 0 true 0 3; S_ true 0 true 1 2; S_ true 2 true 2 6; S_ true 0 true 3 2]);
  (7543, [S_ false 0 true 0 4; S_ false 0 true 1 2; S_ false 0 true 2 4; S_ false 0 true 3 3]);
  (7545, [S_ true 0 true 0 3; S_ false 1 true 0 9; S_ false 2 true 2 4]);
  (7547, [S_ true 0 true 0 2; S_ false 1 true 0 6; S_ false 1 true 2 7]);
  (7549, [S_ false 0 true 0 4; S_ false 0 true 1 2; S_ false 0 true 2 5; S_ true 0 true 3 2]);
  (7551, [S_ true 0 true 0 2; S_ false 1 true 0 6; S_ false 0 true 2 7]);
  (7553, [S_ true 0 true 0 2; S_ false 1 true 0 6; S_ true 0 true 2 7]);
  (7555, [S_ false 0 true 0 4; S_ false 0 true 1 2; S_ true 0 true 2 5; S_ false 0 true 3 2]);
  (7557, [S_ true 0 true 0 2; S_ false 1 true 0 6; S_ true 1 true 2 7]);
  (7559, [S_ false 0 true 0 4; S_ true 0 true 1 3; S_ false 2 true 1 9]);
  (7561, [S_ false 0 true 0 4; S_ false 0 true 1 3; S_ false 2 true 1 9]);
  (7563, [S_ false 0 true 0 4; S_ false 1 true 1 6; S_ true 0 true 2 1; S_ false 0 true 3 2]);
  (7565, [S_ false 0 true 0 4; S_ false 1 true 1 6; S_ true 0 true 2 1; S_ true 0 true 3 2]);
  (7567, [S_ false 0 true 0 4; S_ false 1 true 0 7; S_ false 2 true 1 9]);
  (7569, [S_ false 0 true 0 4; S_ false 0 true 1 2; S_ true 0 true 2 3; S_ true 0 true 3 4]);
  (7571, [S_ true 0 true 0 2; S_ false 1 true 1 5; S_ false 2 true 0 11; S_ false 0 true 3 2]);
  (7573, [S_ true 0 true 0 2; S_ false 1 true 1 5; S_ false 2 true 0 11; S_ true 0 true 3 2]);
  (7575, [S_ false 0 true 0 3; S_ false 1 true 0 9; S_ false 2 true 2 4]);
  (7577, [S_ false 0 true 0 4; S_ true 0 true 1 5; S_ false 1 true 2 1; S_ true 0 true 3 3]);
  (7579, [S_ true 0 true 0 3; S_ true 1 true 1 4; S_ false 2 true 0 11; S_ false 0 true 3 2]);
  (7581, [S_ false 0 true 0 4; S_ false 0 true 1 2; S_ true 1 true 2 6; S_ false 0 true 3 1]);
  (7583, [S_ false 0 true 0 4; S_ false 0 true 1 2; S_ true 0 true 2 2; S_ false 0 true 3 5]);
  (7585, [S_ false 0 true 0 4; S_ false 0 true 1 2; S_ true 0 true 2 2; S_ true 0 true 3 5]);
  (7587, [S_ false 0 true 0 4; S_ false 0 true 1 3; S_ false 1 true 2 5; S_ true 0 true 3 1]);
  (7589, [S_ false 0 true 0 4; S_ false 0 true 1 4; S_ false 1 true 2 3; S_ true 0 true 3 2]);
  (7591, [S_ false 0 true 0 4; S_ true 0 true 1 4; S_ false 1 true 2 2; S_ false 0 true 3 3]);
  (7593, [S_ false 0 true 0 4; S_ true 0 true 1 4; S_ false 1 true 2 2; S_ true 0 true 3 3]);
  (7595, [S_ false 0 true 0 3; S_ false 0 true 1 6; S_ false 0 true 2 2; S_ true 2 true 3 2]);
  (7597, [S_ true 0 true 0 3; S_ true 1 true 1 5; S_ false 2 true 0 12; S_ false 0 true 3 1]);
  (7599, [S_ false 0 true 0 3; S_ false 0 true 1 6; S_ true 2 true 2 4]);
  (7601, [S_ false 0 true 0 4; S_ true 1 true 0 6; S_ false 2 true 1 9]);
  (7603, [S_ false 0 true 0 4; S_ false 0 true 1 5; S_ false 1 true 2 2; S_ false 0 true 3 2]);
  (7605, [S_ true 0 true 0 2; S_ false 1 true 0 9; S_ false 2 true 2 4]);
  (7607, [S_ true 0 true 0 3; S_ false 1 true 0 7; S_ false 1 true 2 6]);
  (7609, [S_ false 0 true 0 3; S_ true 1 true 1 4; S_ false 1 true 2 6]);
  (7611, [S_ true 0 true 0 2; S_ false 1 true 0 6; S_ true 2 true 2 7]);
  (7613, [S_ false 0 true 0 4; S_ false 0 true 1 3; S_ false 0 true 2 4; S_ true 0 true 3 2]);
  (7615, [S_ true 0 true 0 3; S_ false 1 true 0 7; S_ false 0 true 2 6]);
  (7617, [S_ true 0 true 0 3; S_ false 1 true 0 7; S_ true 0 true 2 6]);
  (7619, [S_ false 0 true 0 4; S_ true 0 true 1 2; S_ false 2 true 1 9]);
  (7621, [S_ false 0 true 0 4; S_ false 0 true 1 2; S_ false 2 true 1 9]);
  (7623, [S_ false 0 true 0 3; S_ false 1 true 0 7; S_ false 2 true 2 6]);
  (7625, [S_ true 0 true 0 3; S_ false 1 true 0 7; S_ true 1 true 2 6]);
  (7627, [S_ false 0 true 0 4; S_ true 0 true 1 6; S_ false 1 true 2 1; S_ false 0 true 3 2]);
  (7629, [S_ false 0 true 0 4; S_ true 0 true 1 6; S_ false 1 true 2 1; S_ true 0 true 3 2]);
  (7631, [S_ true 0 true 0 4; S_ false 1 true 0 8; S_ false 1 true 2 5]);
  (7633, [S_ false 0 true 0 3; S_ true 0 true 1 6; S_ true 2 true 2 4]);
  (7635, [S_ true 0 true 0 1; S_ false 1 true 0 9; S_ false 2 true 2 4]);
  (7637, [S_ false 0 true 0 4; S_ true 0 true 1 5; S_ false 1 true 2 2; S_ true 0 true 3 2]);
  (7639, [S_ false 0 true 0 4; S_ false 0 true 1 4; S_ false 0 true 2 2; S_ false 0 true 3 3]);
  (7641, [S_ false 0 true 0 4; S_ false 0 true 1 4; S_ false 0 true 2 2; S_ true 0 true 3 3]);
  (7643, [S_ false 0 true 0 4; S_ false 0 true 1 4; S_ false 0 true 2 3; S_ false 0 true 3 2]);
  (7645, [S_ false 0 true 0 4; S_ false 0 true 1 4; S_ false 0 true 2 3; S_ true 0 true 3 2]);
  (7647, [S_ true 0 true 0 4; S_ false 1 true 0 8; S_ false 0 true 2 5]);
  (7649, [S_ true 0 true 0 4; S_ false 1 true 0 8; S_ true 0 true 2 5]);
  (7651, [S_ false 0 true 0 4; S_ false 0 true 1 1; S_ false 2 true 1 9]);
  (7653, [S_ false 0 true 0 4; S_ false 0 true 1 4; S_ true 0 true 2 3; S_ true 0 true 3 2]);
  (7655, [S_ false 0 true 0 4; S_ false 0 true 1 4; S_ true 0 true 2 2; S_ false 0 true 3 3]);
  (7657, [S_ true 0 true 0 3; S_ false 1 true 0 8; S_ false 2 true 2 5]);
  (7659, [S_ false 0 true 0 4; S_ false 0 true 1 5; S_ false 0 true 2 2; S_ false 0 true 3 2]);
  (7661, [S_ false 0 true 0 4; S_ true 1 true 0 2; S_ false 2 true 1 9]);
  (7663, [S_ true 0 true 0 4; S_ true 1 false 0 1; S_ false 1 true 2 9]);
  (7665, [S_ false 0 true 0 4; S_ false 1 true 1 9]);
  (7667, [S_ false 0 true 0 4; S_ true 1 false 0 1; S_ false 2 true 1 9]);
  (7669, [S_ false 0 true 0 4; S_ true 1 false 0 2; S_ false 2 true 1 9]);
  (7671, [S_ true 0 true 0 3; S_ false 0 true 0 4; S_ false 1 true 2 9]);
  (7673, [S_ false 0 true 0 3; S_ true 1 true 0 3; S_ false 1 true 2 9]);
  (7675, [S_ true 0 true 0 1; S_ false 0 true 1 9; S_ true 2 true 2 2]);
  (7677, [S_ true 0 true 0 1; S_ false 0 true 0 4; S_ false 1 true 2 9]);
  (7679, [S_ false 0 true 0 4; S_ false 0 true 1 9])].

Definition asc13_chunk_7 : asc_map := [
  (7681, [S_ false 0 true 0 4; S_ true 0 true 1 9]);
  (7683, [S_ true 0 true 0 1; S_ false 0 true 0 4; S_ true 1 true 2 9]);
  (7685, [S_ true 0 true 0 1; S_ true 0 true 1 9; S_ true 2 true 2 2]);
  (7687, [S_ false 0 true 0 3; S_ true 1 true 0 3; S_ true 1 true 2 9]);
  (7689, [S_ true 0 true 0 3; S_ false 0 true 0 4; S_ true 1 true 2 9]);
  (7691, [S_ false 0 true 0 4; S_ true 1 false 0 2; S_ true 2 true 1 9]);
  (7693, [S_ false 0 true 0 4; S_ true 1 false 0 1; S_ true 2 true 1 9]);
  (7695, [S_ false 0 true 0 4; S_ true 1 true 1 9]);
  (7697, [S_ true 0 true 0 4; S_ true 1 false 0 1; S_ true 1 true 2 9]);
  (7699, [S_ false 0 true 0 4; S_ true 1 true 0 2; S_ true 2 true 1 9]);
  (7701, [S_ false 0 true 0 4; S_ true 0 true 1 5; S_ true 0 true 2 2; S_ true 0 true 3 2]);
  (7703, [S_ false 0 true 0 4; S_ true 1 true 0 3; S_ true 2 true 1 9]);
  (7705, [S_ false 0 true 0 4; S_ true 0 true 1 4; S_ false 0 true 2 2; S_ true 0 true 3 3]);
  (7707, [S_ false 0 true 0 4; S_ true 0 true 1 4; S_ false 0 true 2 3; S_ false 0 true 3 2]);
  (7709, [S_ false 0 true 0 4; S_ false 0 true 1 1; S_ true 2 true 1 9]);
  (7711, [S_ false 0 true 0 4; S_ true 1 true 0 4; S_ true 2 true 1 9]);
  (7713, [S_ false 0 true 0 4; S_ true 0 true 0 5; S_ true 2 true 1 9]);
  (7715, [S_ false 0 true 0 4; S_ true 0 true 1 4; S_ true 0 true 2 3; S_ false 0 true 3 2]);
  (7717, [S_ false 0 true 0 4; S_ true 0 true 1 4; S_ true 0 true 2 3; S_ true 0 true 3 2]);
  (7719, [S_ false 0 true 0 3; S_ false 1 true 0 8; S_ false 2 true 2 5]);
  (7721, [S_ false 0 true 0 4; S_ true 0 true 1 4; S_ true 0 true 2 2; S_ true 0 true 3 3]);
  (7723, [S_ false 0 true 0 4; S_ false 0 true 1 5; S_ true 1 true 2 2; S_ false 0 true 3 2]);
  (7725, [S_ true 0 true 0 1; S_ true 1 true 0 9; S_ false 2 true 2 4]);
  (7727, [S_ false 0 true 0 4; S_ true 1 true 0 5; S_ true 2 true 1 9]);
  (7729, [S_ false 0 true 0 4; S_ false 1 true 0 6; S_ true 2 true 1 9]);
  (7731, [S_ false 0 true 0 4; S_ false 0 true 1 6; S_ true 1 true 2 1; S_ false 0 true 3 2]);
  (7733, [S_ false 0 true 0 4; S_ false 0 true 1 6; S_ true 1 true 2 1; S_ true 0 true 3 2]);
  (7735, [S_ true 0 true 0 3; S_ false 1 true 0 7; S_ true 2 true 2 6]);
  (7737, [S_ false 0 true 0 3; S_ false 1 true 0 7; S_ false 1 true 2 6]);
  (7739, [S_ false 0 true 0 4; S_ false 0 true 1 2; S_ true 2 true 1 9]);
  (7741, [S_ false 0 true 0 4; S_ true 0 true 1 2; S_ true 2 true 1 9]);
  (7743, [S_ false 0 true 0 3; S_ false 1 true 0 7; S_ false 0 true 2 6]);
  (7745, [S_ false 0 true 0 3; S_ false 1 true 0 7; S_ true 0 true 2 6]);
  (7747, [S_ true 0 true 0 1; S_ false 1 true 0 6; S_ false 2 true 2 7]);
  (7749, [S_ true 0 true 0 2; S_ false 1 true 0 7; S_ false 2 true 2 6]);
  (7751, [S_ false 0 true 0 3; S_ false 1 true 0 7; S_ true 1 true 2 6]);
  (7753, [S_ false 0 true 0 4; S_ true 0 true 1 3; S_ true 0 true 2 3; S_ true 0 true 3 3]);
  (7755, [S_ true 0 true 0 2; S_ true 1 true 0 9; S_ false 2 true 2 4]);
  (7757, [S_ false 0 true 0 4; S_ true 0 true 1 5; S_ true 1 true 2 2; S_ true 0 true 3 2]);
  (7759, [S_ false 0 true 0 4; S_ true 1 true 0 6; S_ true 2 true 1 9]);
  (7761, [S_ false 0 true 0 4; S_ true 0 true 1 3; S_ true 0 true 2 2; S_ true 0 true 3 4]);
  (7763, [S_ false 0 true 0 4; S_ true 0 true 1 3; S_ true 0 true 2 4; S_ true 1 true 3 2]);
  (7765, [S_ false 0 true 0 3; S_ false 1 true 1 5; S_ false 2 true 0 12; S_ true 1 true 3 1]);
  (7767, [S_ false 0 true 0 4; S_ false 0 true 1 4; S_ true 1 true 2 2; S_ false 0 true 3 3]);
  (7769, [S_ false 0 true 0 4; S_ false 0 true 1 4; S_ true 1 true 2 2; S_ true 0 true 3 3]);
  (7771, [S_ false 0 true 0 4; S_ true 0 true 1 4; S_ true 1 true 2 3; S_ false 0 true 3 2]);
  (7773, [S_ false 0 true 0 4; S_ true 0 true 1 3; S_ true 1 true 2 5; S_ false 0 true 3 1]);
  (7775, [S_ false 0 true 0 4; S_ true 0 true 1 2; S_ false 0 true 2 2; S_ false 0 true 3 5]);
  (7777, [S_ false 0 true 0 5; S_ true 1 true 0 7; S_ false 2 true 1 8]);
  (7779, [S_ false 0 true 0 4; S_ true 0 true 1 2; S_ false 1 true 2 6; S_ true 0 true 3 1]);
  (7781, [S_ true 0 true 0 2; S_ false 1 true 0 8; S_ false 2 true 2 5]);
  (7783, [S_ false 0 true 0 4; S_ false 0 true 1 5; S_ true 1 true 2 1; S_ false 0 true 3 3]);
  (7785, [S_ false 0 true 0 3; S_ true 1 true 0 9; S_ false 2 true 2 4]);
  (7787, [S_ false 0 true 0 4; S_ false 0 true 1 2; S_ true 2 true 2 5; S_ false 0 true 3 2]);
  (7789, [S_ false 0 true 0 4; S_ false 0 true 1 2; S_ true 2 true 2 5; S_ true 0 true 3 2]);
  (7791, [S_ false 0 true 0 4; S_ true 0 true 1 2; S_ false 0 true 2 3; S_ false 0 true 3 4]);
  (7793, [S_ false 0 true 0 4; S_ false 1 true 0 7; S_ true 2 true 1 9]);
  (7795, [S_ false 0 true 0 4; S_ true 1 true 1 6; S_ false 0 true 2 1; S_ false 0 true 3 2]);
  (7797, [S_ false 0 true 0 4; S_ true 1 true 1 6; S_ false 0 true 2 1; S_ true 0 true 3 2]);
  (7799, [S_ false 0 true 0 4; S_ false 0 true 1 3; S_ true 2 true 1 9]);
  (7801, [S_ false 0 true 0 4; S_ true 0 true 1 3; S_ true 2 true 1 9]);
  (7803, [S_ false 0 true 0 4; S_ true 0 true 1 2; S_ false 0 true 2 5; S_ false 0 true 3 2]);
  (7805, [S_ true 0 true 0 1; S_ false 1 true 0 6; S_ false 1 true 2 7]);
  (7807, [S_ true 0 true 0 1; S_ false 1 true 0 6; S_ false 0 true 2 7]);
  (7809, [S_ true 0 true 0 1; S_ false 1 true 0 6; S_ true 0 true 2 7]);
  (7811, [S_ true 0 true 0 1; S_ false 1 true 0 6; S_ true 1 true 2 7]);
  (7813, [S_ false 0 true 0 5; S_ false 0 true 1 2; S_ false 2 true 1 8]);
  (7815, [S_ true 0 true 0 3; S_ true 1 true 0 9; S_ false 2 true 2 4]);
  (7817, [S_ false 0 true 0 4; S_ true 0 true 1 2; S_ true 0 true 2 4; S_ true 0 true 3 3]);
  (7819, [S_ false 0 true 0 5; S_ true 0 true 1 5; S_ false 1 true 2 1; S_ false 0 true 3 2]);
  (7821, [S_ false 0 true 0 5; S_ true 0 true 1 5; S_ false 1 true 2 1; S_ true 0 true 3 2]);
  (7823, [S_ false 0 true 0 4; S_ true 1 true 0 7; S_ true 2 true 1 9]);
  (7825, [S_ false 0 true 0 4; S_ true 0 true 1 2; S_ true 0 true 2 3; S_ true 0 true 3 4]);
  (7827, [S_ false 0 true 0 5; S_ true 0 true 1 4; S_ false 1 true 2 2; S_ false 0 true 3 2]);
  (7829, [S_ false 0 true 0 4; S_ true 1 true 1 6; S_ true 1 true 2 2; S_ false 0 true 3 1]);
  (7831, [S_ false 0 true 0 4; S_ true 0 true 1 4; S_ true 1 true 2 2; S_ false 0 true 3 3]);
  (7833, [S_ false 0 true 0 4; S_ true 0 true 1 4; S_ true 1 true 2 2; S_ true 0 true 3 3]);
  (7835, [S_ false 0 true 0 5; S_ false 0 true 1 5; S_ false 1 true 2 2; S_ false 1 true 3 1]);
  (7837, [S_ false 0 true 0 4; S_ true 0 true 1 2; S_ true 1 true 2 6; S_ false 0 true 3 1]);
  (7839, [S_ false 0 true 0 5; S_ false 1 true 0 7; S_ false 2 true 1 8]);
  (7841, [S_ false 0 true 0 5; S_ true 1 true 0 6; S_ false 2 true 1 8]);
  (7843, [S_ true 0 true 0 1; S_ false 1 true 0 8; S_ false 2 true 2 5]);
  (7845, [S_ false 0 true 0 5; S_ true 0 true 1 3; S_ false 1 true 2 3; S_ true 0 true 3 2]);
  (7847, [S_ false 0 true 0 4; S_ true 0 true 1 4; S_ true 1 true 2 2; S_ true 1 true 3 3]);
  (7849, [S_ false 0 true 0 5; S_ false 0 true 1 2; S_ true 0 true 2 3; S_ false 1 true 3 3]);
  (7851, [S_ true 0 true 0 2; S_ true 1 true 1 4; S_ false 2 true 0 11; S_ false 0 true 3 2]);
  (7853, [S_ false 0 true 0 4; S_ false 0 true 1 3; S_ true 2 true 2 5; S_ false 0 true 3 1]);
  (7855, [S_ false 0 true 0 5; S_ false 0 true 1 2; S_ false 0 true 2 2; S_ false 0 true 3 4]);
  (7857, [S_ false 0 true 0 5; S_ false 0 true 1 2; S_ false 0 true 2 2; S_ true 0 true 3 4]);
  (7859, [S_ false 0 true 0 4; S_ true 1 true 1 6; S_ true 1 true 2 1; S_ false 0 true 3 2]);
  (7861, [S_ false 0 true 0 4; S_ true 1 true 1 6; S_ true 1 true 2 1; S_ true 0 true 3 2]);
  (7863, [S_ false 0 true 0 5; S_ false 0 true 1 2; S_ false 0 true 2 3; S_ false 0 true 3 3]);
  (7865, [S_ false 0 true 0 3; S_ false 1 true 0 7; S_ true 2 true 2 6]);
  (7867, [S_ true 0 true 0 2; S_ false 1 true 0 7; S_ false 1 true 2 6]);
  (7869, [S_ true 0 true 0 1; S_ false 1 true 0 6; S_ true 2 true 2 7]);
  (7871, [S_ true 0 true 0 2; S_ false 1 true 0 7; S_ false 0 true 2 6]);
  (7873, [S_ true 0 true 0 2; S_ false 1 true 0 7; S_ true 0 true 2 6]);
  (7875, [S_ true 0 true 0 1; S_ false 1 true 0 7; S_ false 2 true 2 6]);
  (7877, [S_ true 0 true 0 2; S_ false 1 true 0 7; S_ true 1 true 2 6]);
  (7879, [S_ false 0 true 0 5; S_ false 0 true 1 2; S_ true 0 true 2 3; S_ false 0 true 3 3]);
  (7881, [S_ false 0 true 0 5; S_ false 0 true 1 2; S_ true 0 true 2 3; S_ true 0 true 3 3]);
  (7883, [S_ false 0 true 0 5; S_ true 0 true 1 5; S_ false 1 true 2 2; S_ true 0 true 3 1]);
  (7885, [S_ true 0 true 0 3; S_ true 1 true 1 4; S_ false 2 true 0 12; S_ false 0 true 3 1]);
  (7887, [S_ true 0 true 0 4; S_ false 1 true 0 8; S_ true 2 true 2 5]);
  (7889, [S_ false 0 true 0 5; S_ true 1 true 0 4; S_ false 2 true 1 8]);
  (7891, [S_ false 0 true 0 5; S_ true 0 true 1 4; S_ false 1 true 2 3; S_ true 0 true 3 1]);
  (7893, [S_ true 0 true 0 2; S_ false 1 true 1 4; S_ false 2 true 0 11; S_ true 0 true 3 2]);
  (7895, [S_ true 0 true 0 3; S_ false 1 true 0 8; S_ false 1 true 2 5]);
  (7897, [S_ false 0 true 0 5; S_ true 1 true 0 3; S_ false 2 true 1 8]);
  (7899, [S_ false 0 true 0 5; S_ false 0 true 1 3; S_ false 0 true 2 3; S_ false 0 true 3 2]);
  (7901, [S_ false 0 true 0 5; S_ true 1 true 0 2; S_ false 2 true 1 8]);
  (7903, [S_ true 0 true 0 3; S_ false 1 true 0 8; S_ false 0 true 2 5]);
  (7905, [S_ false 0 true 0 5; S_ false 1 true 1 8]);
  (7907, [S_ false 0 true 0 5; S_ true 1 false 0 1; S_ false 2 true 1 8]);
  (7909, [S_ false 0 true 0 5; S_ true 1 false 0 2; S_ false 2 true 1 8]);
  (7911, [S_ false 0 true 0 5; S_ false 0 true 1 3; S_ true 0 true 2 2; S_ false 0 true 3 3]);
  (7913, [S_ true 0 true 0 3; S_ false 1 true 0 8; S_ true 1 true 2 5]);
  (7915, [S_ false 0 true 0 5; S_ false 0 true 1 4; S_ false 0 true 2 2; S_ false 0 true 3 2]);
  (7917, [S_ false 0 true 0 5; S_ false 0 true 1 4; S_ false 0 true 2 2; S_ true 0 true 3 2]);
  (7919, [S_ true 0 true 0 4; S_ false 0 true 0 5; S_ false 1 true 2 8]);
  (7921, [S_ true 0 true 0 4; S_ false 1 true 0 9; S_ true 0 true 2 4]);
  (7923, [S_ false 0 true 0 5; S_ false 0 true 1 4; S_ true 0 true 2 2; S_ false 0 true 3 2]);
  (7925, [S_ false 0 true 0 5; S_ false 0 true 1 4; S_ true 0 true 2 2; S_ true 0 true 3 2]);
  (7927, [S_ true 0 true 0 3; S_ false 0 true 0 5; S_ false 1 true 2 8]);
  (7929, [S_ false 0 true 0 3; S_ false 0 true 0 5; S_ false 1 true 2 8]);
  (7931, [S_ true 0 true 0 2; S_ false 0 true 0 5; S_ false 1 true 2 8]);
  (7933, [S_ true 0 true 0 1; S_ false 0 true 0 5; S_ false 1 true 2 8]);
  (7935, [S_ false 0 true 0 5; S_ false 0 true 1 8]);
  (7937, [S_ false 0 true 0 5; S_ true 0 true 1 8]);
  (7939, [S_ true 0 true 0 1; S_ false 0 true 0 5; S_ true 1 true 2 8]);
  (7941, [S_ true 0 true 0 2; S_ false 0 true 0 5; S_ true 1 true 2 8]);
  (7943, [S_ false 0 true 0 3; S_ false 0 true 0 5; S_ true 1 true 2 8]);
  (7945, [S_ true 0 true 0 3; S_ false 0 true 0 5; S_ true 1 true 2 8]);
  (7947, [S_ false 0 true 0 5; S_ true 0 true 1 4; S_ false 0 true 2 2; S_ false 0 true 3 2]);
  (7949, [S_ false 0 true 0 5; S_ true 0 true 1 4; S_ false 0 true 2 2; S_ true 0 true 3 2]);
  (7951, [S_ false 0 true 0 4; S_ true 1 true 0 4; S_ true 1 true 2 8]);
  (7953, [S_ true 0 true 0 4; S_ false 0 true 0 5; S_ true 1 true 2 8]);
  (7955, [S_ false 0 true 0 5; S_ true 0 true 1 4; S_ true 0 true 2 2; S_ false 0 true 3 2]);
  (7957, [S_ false 0 true 0 5; S_ true 0 true 1 4; S_ true 0 true 2 2; S_ true 0 true 3 2]);
  (7959, [S_ false 0 true 0 5; S_ true 1 false 0 3; S_ true 2 true 1 8]);
  (7961, [S_ false 0 true 0 3; S_ false 1 true 0 8; S_ false 1 true 2 5]);
  (7963, [S_ false 0 true 0 5; S_ true 1 false 0 2; S_ true 2 true 1 8]);
  (7965, [S_ false 0 true 0 5; S_ true 1 false 0 1; S_ true 2 true 1 8]);
  (7967, [S_ false 0 true 0 5; S_ true 1 true 1 8]);
  (7969, [S_ false 0 true 0 3; S_ false 1 true 0 8; S_ true 0 true 2 5]);
  (7971, [S_ false 0 true 0 5; S_ true 1 true 0 2; S_ true 2 true 1 8]);
  (7973, [S_ false 0 true 0 5; S_ true 0 true 1 3; S_ true 0 true 2 3; S_ true 0 true 3 2]);
  (7975, [S_ false 0 true 0 3; S_ false 1 true 0 8; S_ true 1 true 2 5]);
  (7977, [S_ false 0 true 0 5; S_ true 0 true 1 3; S_ true 0 true 2 2; S_ true 0 true 3 3]);
  (7979, [S_ true 0 true 0 5; S_ true 0 true 1 2; S_ false 2 true 2 4; S_ false 0 true 3 2]);
  (7981, [S_ false 0 true 0 5; S_ false 0 true 1 4; S_ true 1 true 2 3; S_ false 0 true 3 1]);
  (7983, [S_ false 0 true 0 5; S_ true 1 true 0 4; S_ true 2 true 1 8]);
  (7985, [S_ false 0 true 0 6; S_ true 1 true 0 4; S_ false 2 true 1 7]);
  (7987, [S_ false 0 true 0 4; S_ true 0 true 1 3; S_ true 2 true 2 5; S_ true 0 true 3 1]);
  (7989, [S_ false 0 true 0 5; S_ false 0 true 1 5; S_ true 1 true 2 2; S_ false 0 true 3 1]);
  (7991, [S_ false 0 true 0 5; S_ true 0 true 1 2; S_ false 0 true 2 3; S_ false 0 true 3 3]);
  (7993, [S_ false 0 true 0 6; S_ true 1 true 0 3; S_ false 2 true 1 7]);
  (7995, [S_ true 0 true 0 2; S_ false 1 true 0 7; S_ true 2 true 2 6]);
  (7997, [S_ true 0 true 0 1; S_ false 1 true 0 7; S_ false 1 true 2 6]);
  (7999, [S_ true 0 true 0 1; S_ false 1 true 0 7; S_ false 0 true 2 6]);
  (8001, [S_ false 0 true 0 6; S_ false 1 true 1 7]);
  (8003, [S_ true 0 true 0 1; S_ false 1 true 0 7; S_ true 1 true 2 6]);
  (8005, [S_ false 0 true 0 6; S_ true 1 false 0 2; S_ false 2 true 1 7]);
  (8007, [S_ false 0 true 0 5; S_ true 0 true 1 2; S_ true 0 true 2 3; S_ false 0 true 3 3]);
  (8009, [S_ false 0 true 0 6; S_ true 1 false 0 3; S_ false 2 true 1 7]);
  (8011, [S_ true 0 true 0 1; S_ false 1 true 1 4; S_ false 2 true 0 11; S_ false 0 true 3 2]);
  (8013, [S_ false 0 true 0 5; S_ true 0 true 1 4; S_ true 1 true 2 3; S_ false 0 true 3 1]);
  (8015, [S_ false 0 true 0 5; S_ true 0 true 1 2; S_ true 0 true 2 2; S_ false 0 true 3 4]);
  (8017, [S_ false 0 true 0 6; S_ true 1 false 0 4; S_ false 2 true 1 7]);
  (8019, [S_ false 0 true 0 6; S_ true 0 true 1 3; S_ true 0 true 2 3; S_ false 1 true 3 1]);
  (8021, [S_ true 0 true 0 2; S_ true 1 true 1 4; S_ false 2 true 0 12; S_ false 0 true 3 1]);
  (8023, [S_ false 0 true 0 6; S_ false 0 true 1 2; S_ false 0 true 2 2; S_ false 0 true 3 3]);
  (8025, [S_ false 0 true 0 6; S_ false 0 true 1 2; S_ false 0 true 2 2; S_ true 0 true 3 3]);
  (8027, [S_ true 0 true 0 2; S_ false 1 true 0 8; S_ false 1 true 2 5]);
  (8029, [S_ true 0 true 0 1; S_ true 1 true 0 8; S_ false 2 true 2 5]);
  (8031, [S_ true 0 true 0 2; S_ false 1 true 0 8; S_ false 0 true 2 5]);
  (8033, [S_ true 0 true 0 2; S_ false 1 true 0 8; S_ true 0 true 2 5]);
  (8035, [S_ false 0 true 0 6; S_ false 0 true 1 2; S_ true 0 true 2 3; S_ false 0 true 3 2]);
  (8037, [S_ true 0 true 0 2; S_ false 1 true 0 8; S_ true 1 true 2 5]);
  (8039, [S_ true 0 true 0 3; S_ false 1 true 0 9; S_ false 1 true 2 4]);
  (8041, [S_ false 0 true 0 6; S_ false 0 true 1 2; S_ true 0 true 2 2; S_ true 0 true 3 3]);
  (8043, [S_ false 0 true 0 6; S_ false 0 true 1 3; S_ false 0 true 2 2; S_ false 0 true 3 2]);
  (8045, [S_ false 0 true 0 6; S_ false 0 true 1 3; S_ false 0 true 2 2; S_ true 0 true 3 2]);
  (8047, [S_ true 0 true 0 3; S_ false 1 true 0 9; S_ false 0 true 2 4]);
  (8049, [S_ true 0 true 0 3; S_ false 1 true 0 9; S_ true 0 true 2 4]);
  (8051, [S_ false 0 true 0 6; S_ false 0 true 1 3; S_ true 0 true 2 2; S_ false 0 true 3 2]);
  (8053, [S_ false 0 true 0 6; S_ false 0 true 1 3; S_ true 0 true 2 2; S_ true 0 true 3 2]);
  (8055, [S_ true 0 true 0 3; S_ false 0 true 0 6; S_ false 1 true 2 7]);
  (8057, [S_ true 0 true 0 3; S_ false 1 true 0 9; S_ true 1 true 2 4]);
  (8059, [S_ true 0 true 0 2; S_ false 0 true 0 6; S_ false 1 true 2 7]);
  (8061, [S_ true 0 true 0 1; S_ false 0 true 0 6; S_ false 1 true 2 7]);
  (8063, [S_ false 0 true 0 6; S_ false 0 true 1 7]);
  (8065, [S_ false 0 true 0 6; S_ true 0 true 1 7]);
  (8067, [S_ true 0 true 0 1; S_ false 0 true 0 6; S_ true 1 true 2 7]);
  (8069, [S_ true 0 true 0 2; S_ false 0 true 0 6; S_ true 1 true 2 7]);
  (8071, [S_ true 0 true 0 3; S_ true 0 true 1 7; S_ false 2 true 2 3]);
  (8073, [S_ true 0 true 0 3; S_ false 0 true 0 6; S_ true 1 true 2 7]);
  (8075, [S_ false 0 true 0 6; S_ true 0 true 1 3; S_ false 0 true 2 2; S_ false 0 true 3 2]);
  (8077, [S_ false 0 true 0 6; S_ true 0 true 1 3; S_ false 0 true 2 2; S_ true 0 true 3 2]);
  (8079, [S_ false 0 true 0 3; S_ false 1 true 0 9; S_ false 0 true 2 4]);
  (8081, [S_ false 0 true 0 3; S_ false 1 true 0 9; S_ true 0 true 2 4]);
  (8083, [S_ false 0 true 0 6; S_ true 0 true 1 3; S_ true 0 true 2 2; S_ false 0 true 3 2]);
  (8085, [S_ false 0 true 0 6; S_ true 0 true 1 3; S_ true 0 true 2 2; S_ true 0 true 3 2]);
  (8087, [S_ false 0 true 0 3; S_ false 1 true 0 9; S_ true 1 true 2 4]);
  (8089, [S_ false 0 true 0 6; S_ true 0 true 1 2; S_ false 0 true 2 2; S_ true 0 true 3 3]);
  (8091, [S_ true 0 true 0 2; S_ true 1 true 0 8; S_ false 2 true 2 5]);
  (8093, [S_ true 0 true 0 1; S_ false 1 true 0 8; S_ false 1 true 2 5]);
  (8095, [S_ true 0 true 0 1; S_ false 1 true 0 8; S_ false 0 true 2 5]);
  (8097, [S_ true 0 true 0 1; S_ false 1 true 0 8; S_ true 0 true 2 5]);
  (8099, [S_ true 0 true 0 1; S_ false 1 true 0 8; S_ true 1 true 2 5]);
  (8101, [S_ false 0 true 0 6; S_ true 0 true 1 2; S_ true 0 true 2 3; S_ true 0 true 3 2]);
  (8103, [S_ false 0 true 0 6; S_ true 0 true 1 2; S_ true 0 true 2 2; S_ false 0 true 3 3]);
  (8105, [S_ false 0 true 0 6; S_ true 0 true 1 2; S_ true 0 true 2 2; S_ true 0 true 3 3]);
  (8107, [S_ true 0 true 0 2; S_ false 1 true 0 9; S_ false 1 true 2 4]);
  (8109, [S_ false 0 true 0 7; S_ false 0 true 1 2; S_ false 0 true 2 2; S_ true 0 true 3 2]);
  (8111, [S_ true 0 true 0 2; S_ false 1 true 0 9; S_ false 0 true 2 4]);
  (8113, [S_ true 0 true 0 2; S_ false 1 true 0 9; S_ true 0 true 2 4]);
  (8115, [S_ false 0 true 0 7; S_ false 0 true 1 2; S_ true 0 true 2 2; S_ false 0 true 3 2]);
  (8117, [S_ true 0 true 0 2; S_ false 1 true 0 9; S_ true 1 true 2 4]);
  (8119, [S_ true 0 true 0 3; S_ true 1 true 0 6; S_ false 2 true 0 13]);
  (8121, [S_ true 0 true 0 3; S_ false 1 true 0 10; S_ true 0 true 2 3]);
  (8123, [S_ true 0 true 0 2; S_ true 1 true 0 6; S_ false 2 true 0 13]);
  (8125, [S_ true 0 true 0 1; S_ true 1 true 0 6; S_ false 2 true 0 13]);
  (8127, [S_ true 0 true 0 6; S_ false 1 true 0 13]);
  (8129, [S_ false 0 true 0 6; S_ false 1 true 0 13]);
  (8131, [S_ true 0 true 0 1; S_ false 1 true 0 6; S_ false 2 true 0 13]);
  (8133, [S_ true 0 true 0 2; S_ false 1 true 0 6; S_ false 2 true 0 13]);
  (8135, [S_ false 0 true 0 3; S_ false 1 true 0 6; S_ false 2 true 0 13]);
  (8137, [S_ true 0 true 0 3; S_ false 1 true 0 6; S_ false 2 true 0 13]);
  (8139, [S_ false 0 true 0 7; S_ true 0 true 1 2; S_ false 0 true 2 2; S_ false 0 true 3 2]);
  (8141, [S_ true 0 true 0 1; S_ false 1 true 0 9; S_ false 1 true 2 4]);
  (8143, [S_ true 0 true 0 1; S_ false 1 true 0 9; S_ false 0 true 2 4]);
  (8145, [S_ true 0 true 0 1; S_ false 1 true 0 9; S_ true 0 true 2 4]);
  (8147, [S_ true 0 true 0 1; S_ false 1 true 0 9; S_ true 1 true 2 4]);
  (8149, [S_ false 0 true 0 7; S_ true 0 true 1 2; S_ true 0 true 2 2; S_ true 0 true 3 2]);
  (8151, [S_ true 0 true 0 2; S_ false 1 true 0 10; S_ false 0 true 2 3]);
  (8153, [S_ true 0 true 0 2; S_ false 1 true 0 10; S_ true 0 true 2 3]);
  (8155, [S_ true 0 true 0 2; S_ true 1 true 0 5; S_ false 2 true 0 13]);
  (8157, [S_ true 0 true 0 1; S_ true 1 true 0 5; S_ false 2 true 0 13]);
  (8159, [S_ true 0 true 0 5; S_ false 1 true 0 13]);
  (8161, [S_ false 0 true 0 5; S_ false 1 true 0 13]);
  (8163, [S_ true 0 true 0 1; S_ false 1 true 0 5; S_ false 2 true 0 13]);
  (8165, [S_ true 0 true 0 1; S_ false 1 true 0 10; S_ false 1 true 2 3]);
  (8167, [S_ true 0 true 0 1; S_ false 1 true 0 10; S_ false 0 true 2 3]);
  (8169, [S_ true 0 true 0 1; S_ false 1 true 0 10; S_ true 0 true 2 3]);
  (8171, [S_ true 0 true 0 1; S_ false 1 true 0 10; S_ true 1 true 2 3]);
  (8173, [S_ true 0 true 0 1; S_ true 1 true 0 4; S_ false 2 true 0 13]);
  (8175, [S_ true 0 true 0 4; S_ false 1 true 0 13]);
  (8177, [S_ false 0 true 0 4; S_ false 1 true 0 13]);
  (8179, [S_ true 0 true 0 1; S_ false 1 true 0 4; S_ false 2 true 0 13]);
  (8181, [S_ true 0 true 0 1; S_ true 1 true 0 3; S_ false 2 true 0 13]);
  (8183, [S_ true 0 true 0 3; S_ false 1 true 0 13]);
  (8185, [S_ false 0 true 0 3; S_ false 1 true 0 13]);
  (8187, [S_ true 0 true 0 2; S_ false 1 true 0 13]);
  (8189, [S_ true 0 true 0 1; S_ false 1 true 0 13]);
  (8191, [S_ false 0 true 0 13])].

Definition asc13 : asc_map :=
  asc13_chunk_0 ++ asc13_chunk_1 ++ asc13_chunk_2 ++ asc13_chunk_3 ++ asc13_chunk_4 ++ asc13_chunk_5 ++ asc13_chunk_6 ++ asc13_chunk_7.
