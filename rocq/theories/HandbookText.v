(** The files in ADRpy/data/_MHDBK310 as lists of lines.  Written by tools/handbook.py. *)
From Coq Require Import String List.
Import ListNotations.
Open Scope string_scope.

(* ADRpy/data/_MHDBK310/high_dens_at_10km.m310 *)
Definition lines_high_dens_at_10km : list string := [
  "0 1.203e+0 295.150 1.228e+0 289.150";
  "2 9.786e-1 287.567 9.948e-1 281.160";
  "4 8.035e-1 274.792 8.005e-1 273.175";
  "6 6.668e-1 260.756 6.596e-1 256.245";
  "8 5.331e-1 242.815 5.365e-1 239.298";
  "10 4.342e-1 224.884 4.298e-1 222.361";
  "12 3.442e-1 206.965 3.384e-1 205.436";
  "14 2.491e-1 205.673 2.433e-1 205.150";
  "16 1.797e-1 204.678 1.747e-1 205.150";
  "18 1.285e-1 205.360 1.243e-1 207.469";
  "20 9.144e-2 207.942 8.878e-2 209.853";
  "22 6.532e-2 210.522 6.366e-2 212.235";
  "24 4.686e-2 213.101 4.583e-2 214.615";
  "26 3.376e-2 215.678 3.311e-2 216.994";
  "28 2.430e-2 219.356 2.402e-2 219.372";
  "30 1.751e-2 224.503 1.748e-2 221.748";
  "32 1.271e-2 229.648 1.277e-2 224.122";
  "34 9.294e-3 234.789 9.366e-3 226.495";
  "36 6.843e-3 239.926 6.891e-3 228.867";
  "38 5.072e-3 245.062 5.027e-3 234.368";
  "40 3.784e-3 250.192 3.690e-3 240.289";
  "42 2.840e-3 255.321 2.730e-3 246.207";
  "44 2.176e-3 256.150 2.034e-3 252.121";
  "46 1.673e-3 256.150 1.527e-3 258.032";
  "48 1.287e-3 256.150 1.154e-3 263.650";
  "50 9.901e-4 256.150 8.949e-4 263e-650";
  "52 7.695e-4 253.254 6.938e-4 263.583";
  "54 5.980e-4 249.520 5.456e-4 259.260";
  "56 4.630e-4 245.789 4.274e-4 254.939";
  "58 3.571e-4 242.060 3.334e-4 250.621";
  "60 2.744e-4 238.334 2.591e-4 246.306";
  "62 2.100e-4 234.609 2.004e-4 241.993";
  "64 1.601e-4 230.888 1.543e-4 237.683";
  "66 1.215e-4 227.168 1.183e-4 233.276";
  "68 9.182e-5 223.451 9.031e-5 229.071";
  "70 6.907e-5 219.736 6.853e-5 224.890";
  "72 5.125e-5 218.150 5.150e-5 221.959";
  "74 3.775e-5 218.150 3.856e-5 219.029";
  "76 2.781e-5 218.103 2.876e-5 216.102";
  "78 2.081e-5 214.202 2.138e-5 213.176";
  "80 1.548e-5 210.304 1.582e-5 210.252"].

(* ADRpy/data/_MHDBK310/high_dens_at_20km.m310 *)
Definition lines_high_dens_at_20km : list string := [
  "0 1.169e+0 301.150 1.169e+0 301.150";
  "2 9.609e-1 291.179 9.639e-1 290.182";
  "4 7.843e-1 281.214 7.886e-1 279.221";
  "6 6.356e-1 271.256 6.401e-1 268.267";
  "8 5.110e-1 261.304 5.152e-1 257.319";
  "10 4.160e-1 245.483 4.180e-1 241.483";
  "12 3.342e-1 229.580 3.345e-1 225.580";
  "14 2.643e-1 213.687 2.634e-1 209.687";
  "16 2.053e-1 197.803 2.038e-1 193.803";
  "18 1.475e-1 193.482 1.455e-1 189.211";
  "20 9.994e-2 203.000 9.795e-2 198.134";
  "22 6.891e-2 212.512 6.710e-2 207.652";
  "24 4.929e-2 216.845 4.711e-2 214.014";
  "26 3.554e-2 220.803 3.377e-2 218.369";
  "28 2.578e-2 224.759 2.437e-2 222.720";
  "30 1.880e-2 228.712 1.770e-2 227.069";
  "32 1.380e-2 232.663 1.294e-2 231.415";
  "34 1.017e-2 236.612 9.519e-3 235.758";
  "36 7.548e-3 240.558 7.033e-3 240.363";
  "38 5.603e-3 245.514 5.186e-3 247.264";
  "40 4.159e-3 252.411 3.857e-3 254.161";
  "42 3.112e-3 259.303 2.892e-3 261.053";
  "44 2.347e-3 266.191 2.185e-3 267.941";
  "46 1.795e-3 271.150 1.664e-3 274.650";
  "48 1.401e-3 271.150 1.303e-3 274.650";
  "50 1.094e-3 271.150 1.020e-3 274.650";
  "52 8.710e-4 265.321 8.106e-4 270.610";
  "54 6.899e-4 259.435 6.442e-4 265.116";
  "56 5.437e-4 253.554 5.096e-4 259.627";
  "58 4.261e-4 247.675 4.012e-4 254.140";
  "60 3.321e-4 241.801 3.142e-4 248.657";
  "62 2.572e-4 235.930 2.448e-4 243.178";
  "64 1.980e-4 230.063 1.897e-4 237.702";
  "66 1.514e-4 224.199 1.461e-4 232.229";
  "68 1.150e-4 218.339 1.118e-4 226.760";
  "70 8.673e-5 212.483 8.514e-5 221.294";
  "72 6.489e-5 206.631 6.468e-5 214.624";
  "74 4.815e-5 200.782 4.893e-5 206.826";
  "76 3.542e-5 194.937 3.662e-5 199.032";
  "78 2.582e-5 189.095 2.710e-5 191.243";
  "80 1.805e-5 190.448 1.911e-5 191.549"].

(* ADRpy/data/_MHDBK310/high_dens_at_5km.m310 *)
Definition lines_high_dens_at_5km : list string := [
  "0 1.431e+0 251.150 1.509e+0 238.150";
  "2 1.113e+0 245.142 1.104e+0 247.129";
  "4 8.774e-1 234.117 8.739e-1 235.116";
  "6 6.774e-1 224.643 6.833e-1 223.110";
  "8 5.055e-1 221.652 5.270e-1 211.159";
  "10 3.701e-1 222.650 3.772e-1 213.957";
  "12 2.714e-1 223.649 2.712e-1 216.753";
  "14 1.993e-1 224.646 1.977e-1 217.352";
  "16 1.469e-1 225.150 1.454e-1 215.756";
  "18 1.086e-1 225.150 1.067e-1 214.161";
  "20 8.030e-2 225.150 7.815e-2 212.567";
  "22 5.937e-2 225.150 5.711e-2 210.975";
  "24 4.390e-2 225.150 4.164e-2 209.383";
  "26 3.247e-2 225.150 3.030e-2 207.792";
  "28 2.402e-2 225.150 2.199e-2 206.202";
  "30 1.777e-2 225.150 1.535e-2 213.832";
  "32 1.295e-2 228.812 1.084e-2 221.771";
  "34 9.354e-3 236.941 7.752e-3 229.704";
  "36 6.829e-3 245.065 5.608e-3 237.634";
  "38 3.038e-3 253.184 4.101e-3 245.558";
  "40 3.753e-3 261.298 3.029e-3 253.477";
  "42 2.854e-3 266.150 2.270e-3 260.150";
  "44 2.215e-3 266.150 1.751e-3 260.150";
  "46 1.718e-3 266.150 1.354e-3 259.310";
  "48 1.334e-3 266.150 1.052e-3 257.138";
  "50 1.050e-3 261.917 8.154e-4 254.967";
  "52 8.259e-4 256.988 6.307e-4 252.797";
  "54 6.463e-4 252.062 4.868e-4 250.629";
  "56 3.034e-4 247.139 3.740e-4 249.150";
  "58 3.902e-4 242.219 2.855e-4 249.150";
  "60 3.010e-4 237.302 2.180e-4 249.150";
  "62 2.289e-4 234.645 1.665e-4 249.150";
  "64 1.732e-4 232.681 1.271e-4 249.150";
  "66 1.308e-4 230.718 9.715e-5 249.150";
  "68 9.855e-5 228.756 7.423e-5 249.150";
  "70 7.407e-5 226.795 5.672e-5 249.150";
  "72 5.596e-5 222.996 4.391e-5 245.663";
  "74 4.221e-5 218.297 3.405e-5 240.570";
  "76 3.165e-6 213.600 2.626e-5 235.480";
  "78 2.359e-5 208.906 2.014e-5 230.393";
  "80 1.746e-5 204.215 1.536e-5 225.309"].

(* ADRpy/data/_MHDBK310/high_temp_at_10km.m310 *)
Definition lines_high_temp_at_10km : list string := [
  "0 299.150 1.173e-0 300.650 1.171e+0";
  "2 289.177 9.632e-1 289.682 9.651e-1";
  "4 279.210 7.850e-1 278.721 7.894e-1";
  "6 269.249 6.351e-1 267.767 6.405e-1";
  "8 259.295 5.098e-1 256.820 5.153e-1";
  "10 245.985 4.110e-1 243.005 4.152e-1";
  "12 229.084 3.315e-1 226.108 3.340e-1";
  "14 212.193 2.630e-1 209.221 2.642e-1";
  "16 195.314 2.048e-1 195.008 2.024e-1";
  "18 186.150 1.500e-1 189.610 1.457e-1";
  "20 202.781 9.710e-2 206.663 9.496e-2";
  "22 211.443 6.729e-2 211.757 6.709e-2";
  "24 216.197 4.795e-2 216.114 4.791e-2";
  "26 220.948 3.443e-2 220.468 3.445e-2";
  "28 225.696 2.490e-2 224.819 2.494e-2";
  "30 230.441 1.814e-2 229.168 1.817e-2";
  "32 235.183 1.330e-2 233.514 1.332e-2";
  "34 239.922 9.816e-3 237.357 9.825e-3";
  "36 244.659 7.287e-3 242.198 7.286e-3";
  "38 249.392 5.442e-3 246.535 5.433e-3";
  "40 254.122 4.087e-3 250.870 4.073e-3";
  "42 258.849 3.087e-3 255.203 3.069e-3";
  "44 263.574 2.343e-3 259.532 2.324e-3";
  "46 268.150 1.789e-3 263.859 1.768e-3";
  "48 268.150 1.392e-3 268.150 1.352e-3";
  "50 268.150 1.084e-3 268.150 1.052e-3";
  "52 268.150 8.443e-4 268.150 8.197e-4";
  "54 264.940 6.650e-4 268.150 6.384e-4";
  "56 258.077 5.284e-4 262.555 5.066e-4";
  "58 251.217 4.173e-4 256.677 4.004e-4";
  "60 244.362 3.275e-4 250.803 3.148e-4";
  "62 237.511 2.552e-4 244.932 2.461e-4";
  "64 230.664 1.975e-4 239.065 1.913e-4";
  "66 223.822 1.517e-4 233.201 1.478e-4";
  "68 216.984 1.156e-4 227.893 1.132e-4";
  "70 210.150 8.736e-5 223.013 8.610e-5";
  "72 203.320 6.541e-5 218.136 6.507e-5";
  "74 198.150 4.811e-5 213.262 4.887e-5";
  "76 198.150 3.438e-5 208.391 3.647e-5";
  "78 198.150 2.457e-5 203.523 2.703e-5";
  "80 198.150 1.756e-5 198.658 1.990e-5"].

(* ADRpy/data/_MHDBK310/high_temp_at_20km.m310 *)
Definition lines_high_temp_at_20km : list string := [
  "0 228.150 1.552e+0 273.150 1.293e+0";
  "2 238.650 1.110e+0 263.128 1.040e+0";
  "4 231.113 8.575e-1 253.105 8.296e-1";
  "6 221.103 6.623e-1 241.094 6.603e-1";
  "8 216.150 4.947e-1 229.090 5.196e-1";
  "10 217.659 3.584e-1 228.701 3.847e-1";
  "12 219.657 2.599e-1 234.150 2.802e-1";
  "14 221.654 1.891e-1 234.150 2.094e-1";
  "16 223.650 1.379e-1 234.150 1.565e-1";
  "18 232.225 9.855e-2 234.150 1.170e-1";
  "20 240.796 7.126e-2 234.150 8.748e-2";
  "22 243.192 5.336e-2 234.150 6.542e-1";
  "24 239.210 4.092e-2 234.150 4.893e-2";
  "26 235.232 3.124e-2 234.150 3.660e-2";
  "28 231.255 2.375e-2 237.071 2.709e-2";
  "30 230.150 1.777e-2 240.051 2.013e-2";
  "32 230.150 1.323e-2 243.030 1.501e-2";
  "34 230.150 9.860e-3 247.720 1.117e-2";
  "36 230.150 7.346e-3 252.480 8.363e-3";
  "38 230.150 5.473e-3 257.932 6.277e-3";
  "40 230.150 4.079e-3 264.270 4.728e-3";
  "42 230.150 3.040e-3 270.605 3.585e-3";
  "44 230.150 2.267e-3 278.935 2.737e-3";
  "46 230.150 1.690e-3 283.262 2.102e-3";
  "48 232.791 1.248e-3 287.150 1.838e-3";
  "50 235.753 9.242e-4 287.150 1.295e-3";
  "52 238.713 6.870e-4 287.150 1.024e-3";
  "54 241.671 5.126e-4 284.317 8.174e-4";
  "56 240.994 3.890e-4 279.587 6.547e-4";
  "58 239.615 2.957e-4 274.859 5.224e-4";
  "60 238.237 2.244e-4 270.135 4.153e-4";
  "62 236.860 1.701e-4 285.414 3.288e-4";
  "64 235.484 1.287e-4 260.696 2.593e-4";
  "66 235.150 9.693e-5 253.933 2.053e-4";
  "68 235.150 7.287e-5 240.974 1.649e-4";
  "70 235.150 5.480e-5 228.023 1.309e-4";
  "72 233.501 4.147e-5 215.079 1.026e-4";
  "74 231.149 3.140e-5 202.144 7.919e-5";
  "76 228.799 2.371e-5 189.217 6.009e-5";
  "78 226.450 1.786e-5 178.298 4.472e-5";
  "80 224.102 1.341e-5 163.387 3.255e-5"].

(* ADRpy/data/_MHDBK310/high_temp_at_5km.m310 *)
Definition lines_high_temp_at_5km : list string := [
  "0 290.150 1.215e+0 291.650 1.209e+0";
  "2 294.163 9.506e-1 291.133 9.571e-1";
  "4 284.183 7.773e-1 283.190 7.761e-1";
  "6 272.745 6.343e-1 268.276 6.399e-1";
  "8 256.796 5.209e-1 253.337 5.220e-1";
  "10 240.858 4.224e-1 238.407 4.206e-1";
  "12 224.930 3.377e-1 223.496 3.343e-1";
  "14 210.558 2.637e-1 208.575 2.615e-1";
  "16 201.411 1.982e-1 193.674 2.009e-1";
  "18 204.873 1.392e-1 196.813 1.393e-1";
  "20 212.817 9.689e-2 204.751 9.559e-2";
  "22 216.953 6.933e-2 212.683 6.651e-2";
  "24 220.920 4.996e-2 217.607 4.748e-2";
  "26 224.885 3.622e-2 221.173 3.432e-2";
  "28 228.847 2.641e-2 224.735 2.494e-2";
  "30 232.806 1.937e-2 228.296 1.821e-2";
  "32 236.763 1.428e-2 231.855 1.337e-2";
  "34 240.718 1.058e-2 235.411 9.868e-3";
  "36 244.670 7.885e-3 238.965 7.315e-3";
  "38 248.620 5.902e-3 242.517 5.447e-3";
  "40 252.567 4.439e-3 246.066 4.074e-3";
  "42 256.512 3.354e-3 249.613 3.061e-3";
  "44 260.454 2.546e-3 253.159 2.309e-3";
  "46 264.394 1.940e-3 256.701 1.749e-3";
  "48 266.150 1.496e-3 260.150 1.331e-3";
  "50 266.150 1.162e-3 260.150 1.028e-3";
  "52 262.796 9.138e-4 260.150 7.945e-4";
  "54 258.473 7.181e-4 260.150 6.139e-4";
  "56 253.609 5.633e-4 254.522 4.839e-4";
  "58 246.936 4.425e-4 246.679 3.822e-4";
  "60 240.268 3.454e-4 238.840 2.996e-4";
  "62 233.604 2.678e-4 231.006 2.330e-4";
  "64 226.943 2.061e-4 223.177 1.796e-4";
  "66 220.287 1.574e-4 215.353 1.372e-4";
  "68 213.636 1.193e-4 210.419 1.025e-4";
  "70 206.988 8.965e-5 207.489 7.557e-5";
  "72 202.695 6.603e-5 204.560 5.545e-5";
  "74 200.156 4.801e-5 201.634 4.052e-5";
  "76 197.619 3.478e-5 198.709 2.947e-5";
  "78 195.084 2.509e-5 195.786 2.134e-5";
  "80 192.550 1.803e-5 192.864 1.538e-5";
  ""].

(* ADRpy/data/_MHDBK310/low_dens_at_10km.m310 *)
Definition lines_low_dens_at_10km : list string := [
  "0 1.545e-0 228.150 1.448e-0 243.150";
  "2 1.143e+0 229.142 1.102e+0 241.338";
  "4 8.676e-1 223.165 8.601e-1 231.732";
  "6 6.200e-1 231.152 6.639e-1 222.154";
  "8 4.597e-1 232.151 4.838e-1 224.553";
  "10 3.413e-1 233.150 3.538e-1 226.950";
  "12 2.548e-1 233.150 2.609e-1 228.150";
  "14 1.908e-1 232.364 1.935e-1 228.150";
  "16 1.440e-1 229.174 1.441e-1 227.165";
  "18 1.083e-1 225.986 1.076e-1 225.173";
  "20 8.112e-2 222.799 8.018e-2 223.182";
  "22 6.052e-2 219.615 5.957e-2 221.192";
  "24 4.497e-2 216.433 4.415e-2 219.203";
  "26 3.327e-2 213.253 3.264e-2 217.215";
  "28 2.421e-2 213.150 2.397e-2 216.150";
  "30 1.761e-2 213.150 1.752e-2 216.150";
  "32 1.281e-2 213.150 1.280e-2 216.150";
  "34 9.328e-3 213.150 9.360e-3 216.150";
  "36 6.790e-3 213.150 6.696e-3 221.710";
  "38 4.943e-3 213.150 4.826e-3 227.650";
  "40 3.548e-3 216.777 3.508e-3 233.587";
  "42 2.558e-3 220.732 2.571e-3 239.520";
  "44 1.856e-3 224.685 1.899e-3 245.449";
  "46 1.354e-3 228.636 1.413e-3 251.374";
  "48 9.939e-4 232.583 1.059e-3 257.296";
  "50 7.332e-4 236.529 8.132e-4 258.150";
  "52 5.438e-4 240.472 6.264e-4 258.150";
  "54 4.053e-4 244.412 4.843e-4 257.206";
  "56 3.039e-4 248.030 3.766e-4 254.252";
  "58 2.337e-4 245.668 2.921e-4 251.301";
  "60 1.792e-4 243.308 2.258e-4 248.351";
  "62 1.360e-4 243.250 1.741e-4 245.403";
  "64 1.024e-4 245.410 1.338e-4 242.457";
  "66 7.735e-5 247.570 1.025e-4 239.768";
  "68 5.856e-5 249.728 7.800e-5 238.002";
  "70 4.445e-5 251.884 5.924e-5 236.238";
  "72 3.404e-5 252.342 4.491e-5 234.474";
  "74 2.629e-5 250.384 3.398e-5 232.712";
  "76 2.027e-5 248.427 2.566e-5 230.951";
  "78 1.559e-5 248.471 1.934e-5 229.191";
  "80 1.197e-5 244.517 1.455e-5 227.432"].

(* ADRpy/data/_MHDBK310/low_dens_at_20km.m310 *)
Definition lines_low_dens_at_20km : list string := [
  "0 1.502e+0 235.150 1.537e+0 230.150";
  "2 1.093e+0 243.632 1.125e+0 235.137";
  "4 8.690e-1 229.623 8.600e-1 229.114";
  "6 6.808e-1 215.623 6.627e-1 219.105";
  "8 5.052e-1 210.154 5.045e-1 209.150";
  "10 3.608e-1 213.150 3.639e-1 209.150";
  "12 2.620e-1 213.150 2.626e-1 209.137";
  "14 1.903e-1 213.150 1.926e-1 205.143";
  "16 1.362e-1 216.598 1.397e-1 202.150";
  "18 9.686e-2 223.572 9.979e-2 202.150";
  "20 6.741e-2 239.403 7.125e-2 202.150";
  "22 4.882e-2 250.961 5.000e-2 206.061";
  "24 3.763e-2 247.978 3.482e-2 214.023";
  "26 2.891e-2 244.997 2.458e-2 221.980";
  "28 2.215e-2 242.017 1.757e-2 229.932";
  "30 1.691e-2 239.040 1.270e-2 237.879";
  "32 1.277e-2 238.150 9.288e-3 245.821";
  "34 9.615e-3 238.150 6.885e-3 252.753";
  "36 7.236e-3 238.150 5.213e-3 255.727";
  "38 5.447e-3 238.150 3.961e-3 258.700";
  "40 4.100e-3 238.150 3.019e-3 261.761";
  "42 3.087e-3 238.150 2.315e-3 263.889";
  "44 2.311e-3 239.685 1.801e-3 262.306";
  "46 1.720e-3 243.636 1.400e-3 260.725";
  "48 1.286e-3 247.583 1.086e-3 259.144";
  "50 9.663e-4 251.529 8.419e-4 257.565";
  "52 7.303e-4 255.150 6.515e-4 255.986";
  "54 5.339e-4 255.150 5.034e-4 254.409";
  "56 4.349e-4 252.590 3.885e-4 252.832";
  "58 3.369e-4 249.441 2.993e-4 251.256";
  "60 2.602e-4 246.295 2.317e-4 248.101";
  "62 2.003e-4 243.150 1.810e-4 241.217";
  "64 1.537e-4 240.007 1.405e-4 234.336";
  "66 1.168e-4 238.437 1.074e-4 229.150";
  "68 8.855e-5 237.456 8.021e-5 229.150";
  "70 6.703e-5 236.475 5.986e-5 229.150";
  "72 5.081e-5 234.842 4.493e-5 227.781";
  "74 3.849e-5 232.884 3.373e-5 225.821";
  "76 2.909e-5 230.927 2.527e-5 223.862";
  "78 2.194e-5 228.971 1.888e-5 221.905";
  "80 1.651e-5 227.017 1.408e-5 219.949"].

(* ADRpy/data/_MHDBK310/low_dens_at_5km.m310 *)
Definition lines_low_dens_at_5km : list string := [
  "0 1.239e+0 281.650 1.219e+0 289.150";
  "2 9.881e-1 276.647 9.641e-1 289.158";
  "4 7.617e-1 280.148 7.757e-1 283.170";
  "6 6.285e-1 264.162 6.395e-1 268.554";
  "8 5.125e-1 248.187 5.263e-1 251.011";
  "10 4.123e-1 232.221 4.272e-1 233.479";
  "12 3.267e-1 216.265 3.411e-1 215.958";
  "14 2.455e-1 208.150 2.571e-1 207.831";
  "16 1.770e-1 208.150 1.883e-1 203.650";
  "18 1.268e-1 209.592 1.349e-1 203.650";
  "20 9.067e-2 212.577 9.376e-2 211.317";
  "22 6.510e-2 215.559 6.661e-2 216.912";
  "24 4.697e-2 218.539 4.821e-2 219.689";
  "26 3.404e-2 221.518 3.505e-2 222.464";
  "28 2.478e-2 224.495 2.558e-2 225.238";
  "30 1.312e-2 227.470 1.875e-2 228.009";
  "32 1.331e-2 230.443 1.380e-2 230.779";
  "34 9.815e-3 233.414 1.019e-2 233.548";
  "36 7.195e-3 239.116 7.558e-3 236.314";
  "38 5.310e-3 245.051 5.668e-3 241.855";
  "40 3.949e-3 250.982 4.126e-3 247.776";
  "42 2.957e-3 256.910 3.080e-3 253.693";
  "44 2.229e-3 262.833 2.315e-3 259.607";
  "46 1.692e-3 268.753 1.752e-3 265.516";
  "48 1.307e-3 271.150 1.355e-3 266.650";
  "50 1.032e-3 267.717 1.057e-3 265.534";
  "52 8.186e-4 261.808 8.321e-4 261.601";
  "54 6.458e-4 255.903 6.523e-4 257.671";
  "56 5.068e-4 250.002 5.095e-4 253.744";
  "58 3.955e-4 244.104 3.965e-4 249.818";
  "60 3.068e-4 238.209 3.074e-4 245.896";
  "62 2.365e-4 232.319 2.393e-4 239.836";
  "64 1.812e-4 226.432 1.857e-4 232.784";
  "66 1.378e-4 220.548 1.431e-4 225.737";
  "68 1.041e-4 214.669 1.093e-4 218.694";
  "70 7.803e-5 208.793 8.232e-5 211.655";
  "72 5.802e-5 202.920 6.143e-5 207.307";
  "74 4.277e-5 197.052 4.495e-5 204.963";
  "76 3.125e-5 191.187 3.278e-5 202.622";
  "78 2.261e-5 185.325 2.382e-5 200.281";
  "80 1.620e-5 179.468 1.725e-5 197.942"].

(* ADRpy/data/_MHDBK310/low_temp_at_10km.m310 *)
Definition lines_low_temp_at_10km : list string := [
  "0 237.150 1.497e+0 246.150 1.438e+0";
  "2 259.625 1.043e+0 258.124 1.048e+0";
  "4 247.607 8.349e-1 246.105 8.385e-1";
  "6 233.074 6.678e-1 232.681 6.667e-1";
  "8 216.070 5.312e-1 217.876 5.256e-1";
  "10 199.159 4.147e-1 203.150 4.074e-1";
  "12 201.150 2.922e-1 203.137 2.912e-1";
  "14 201.150 2.079e-1 199.542 2.112e-1";
  "16 201.150 1.482e-1 195.950 1.523e-1";
  "18 201.150 1.056e-1 192.360 1.092e-1";
  "20 203.319 7.455e-2 188.773 7.790e-2";
  "22 207.701 5.241e-2 185.187 5.518e-2";
  "24 212.080 3.712e-2 188.105 3.773e-2";
  "26 216.456 2.648e-2 191.089 2.595e-2";
  "28 220.830 1.903e-2 194.071 1.796e-2";
  "30 225.201 1.376e-2 197.051 1.250e-2";
  "32 229.569 1.001e-2 202.882 8.638e-3";
  "34 233.934 7.338e-3 212.010 5.961e-3";
  "36 238.297 5.407e-3 221.132 4.180e-3";
  "38 240.470 4.040e-3 230.249 2.973e-3";
  "40 241.658 3.036e-3 239.361 2.144e-3";
  "42 242.846 2.285e-3 248.466 1.565e-3";
  "44 244.033 1.723e-3 257.566 1.156e-3";
  "46 245.219 1.301e-3 266.660 8.630e-4";
  "48 246.404 9.839e-4 275.749 6.507e-4";
  "50 247.589 7.452e-4 279.150 5.045e-4";
  "52 248.773 5.652e-4 279.150 3.962e-4";
  "54 249.956 4.294e-4 279.150 3.113e-4";
  "56 251.139 3.266e-4 279.150 2.445e-4";
  "58 248.299 2.526e-4 267.802 1.995e-4";
  "60 242.394 1.967e-4 254.024 1.625e-4";
  "62 241.771 1.493e-4 240.253 1.309e-4";
  "64 242.557 1.127e-4 226.491 1.041e-4";
  "66 243.343 8.529e-5 215.516 8.065e-5";
  "68 244.128 6.456e-5 212.964 5.967e-5";
  "70 244.913 4.892e-5 210.413 4.400e-5";
  "72 244.055 3.734e-5 207.863 3.233e-5";
  "74 242.487 2.854e-5 205.316 2.367e-5";
  "76 240.920 2.177e-5 203.150 1.723e-5";
  "78 239.354 1.659e-5 203.150 1.241e-5";
  "80 237.789 1.262e-5 203.150 8.925e-6"].

(* ADRpy/data/_MHDBK310/low_temp_at_20km.m310 *)
Definition lines_low_temp_at_20km : list string := [
  "0 236.650 1.496e+0 240.150 1.472e+0";
  "2 250.023 1.072e+0 254.130 1.054e+0";
  "4 237.604 8.525e-1 245.095 8.312e-1";
  "6 225.192 6.693e-1 230.482 6.629e-1";
  "8 212.788 5.183e-1 215.877 5.210e-1";
  "10 206.650 3.844e-1 207.136 3.922e-1";
  "12 206.631 2.763e-1 204.139 2.855e-1";
  "14 201.639 2.027e-1 201.144 2.069e-1";
  "16 196.650 1.476e-1 198.150 1.493e-1";
  "18 191.664 1.066e-1 195.159 1.072e-1";
  "20 186.682 7.637e-2 192.169 7.661e-2";
  "22 189.619 5.237e-2 192.150 5.377e-2";
  "24 192.605 3.612e-2 192.150 3.774e-2";
  "26 198.920 2.471e-2 196.068 2.606e-2";
  "28 205.282 1.711e-2 200.045 1.812e-2";
  "30 211.640 1.198e-2 204.019 1.270e-2";
  "32 217.994 8.484e-3 207.990 8.963e-3";
  "34 224.344 6.067e-3 211.959 6.368e-3";
  "36 230.690 4.380e-3 219.700 4.488e-3";
  "38 237.032 3.191e-3 227.628 3.200e-3";
  "40 243.370 2.345e-3 235.551 2.308e-3";
  "42 249.705 1.737e-3 243.468 1.684e-3";
  "44 256.035 1.297e-3 251.381 1.241e-3";
  "46 262.362 9.754e-4 259.289 9.237e-4";
  "48 264.650 7.490e-4 264.150 7.012e-4";
  "50 264.650 5.805e-4 264.150 5.432e-4";
  "52 264.650 4.499e-4 264.150 4.208e-4";
  "54 264.650 3.488e-4 264.150 3.261e-4";
  "56 263.152 2.719e-4 262.977 2.538e-4";
  "58 258.622 2.138e-4 259.432 1.988e-4";
  "60 254.094 1.673e-4 255.889 1.552e-4";
  "62 245.367 1.325e-4 247.055 1.231e-4";
  "64 235.537 1.043e-4 236.832 9.735e-5";
  "66 227.468 8.082e-5 228.858 7.543e-5";
  "68 224.719 6.080e-5 227.679 5.651e-5";
  "70 221.971 4.559e-5 226.502 4.228e-5";
  "72 219.226 3.407e-5 223.951 3.177e-5";
  "74 216.482 2.537e-5 220.815 2.384e-5";
  "76 213.740 1.883e-5 217.681 1.782e-5";
  "78 211.000 1.392e-5 214.549 1.327e-5";
  "80 208.261 1.025e-5 211.420 9.842e-6"].

(* ADRpy/data/_MHDBK310/low_temp_at_5km.m310 *)
Definition lines_low_temp_at_5km : list string := [
  "0 220.150 1.607e+0 229.650 1.541e+0";
  "2 234.142 1.124e+0 236.633 1.117e+0";
  "4 224.860 8.698e-1 228.621 8.620e-1";
  "6 216.141 6.628e-1 219.105 6.628e-1";
  "8 214.141 4.869e-1 209.150 5.045e-1";
  "10 211.633 3.575e-1 209.150 3.640e-1";
  "12 207.637 2.631e-1 209.137 2.626e-1";
  "14 203.643 1.925e-1 205.143 1.926e-1";
  "16 199.652 1.400e-1 202.150 1.397e-1";
  "18 199.650 9.958e-2 202.150 9.979e-2";
  "20 199.650 7.080e-2 202.150 7.126e-2";
  "22 199.650 5.035e-2 206.061 5.000e-2";
  "24 207.129 3.474e-2 214.023 3.482e-2";
  "26 214.688 2.428e-2 221.980 2.458e-2";
  "28 222.243 1.719e-2 229.932 1.757e-2";
  "30 229.792 1.231e-2 237.879 1.270e-2";
  "32 237.337 8.916e-3 245.821 9.289e-3";
  "34 244.877 6.523e-3 252.753 6.886e-3";
  "36 250.612 4.850e-3 255.727 5.214e-3";
  "38 255.567 3.639e-3 258.700 3.961e-3";
  "40 260.518 2.747e-3 261.671 3.019e-3";
  "42 265.467 2.084e-3 263.889 2.315e-3";
  "44 269.650 1.594e-3 262.306 1.801e-3";
  "46 269.650 1.241e-3 260.725 1.400e-3";
  "48 268.438 9.706e-4 259.144 1.086e-3";
  "50 265.279 7.628e-4 257.565 8.420e-4";
  "52 262.122 5.978e-4 255.986 6.516e-4";
  "54 258.967 4.672e-4 254.409 5.035e-4";
  "56 255.814 3.641e-4 252.832 3.885e-4";
  "58 252.663 2.829e-4 251.256 2.993e-4";
  "60 249.317 2.193e-4 248.101 2.317e-4";
  "62 241.646 1.721e-4 241.217 1.810e-4";
  "64 233.979 1.340e-4 234.336 1.405e-4";
  "66 230.150 1.019e-4 229.150 1.074e-4";
  "68 230.150 7.615e-5 229.150 8.021e-5";
  "70 230.150 5.691e-5 229.150 5.987e-5";
  "72 228.507 4.281e-5 227.781 4.493e-5";
  "74 226.155 3.222e-5 225.821 3.374e-5";
  "76 223.805 2.418e-5 223.862 2.527e-5";
  "78 221.456 1.810e-5 221.905 1.888e-5";
  "80 219.109 1.350e-5 219.949 1.408e-5";
  "";
  ""].

(* ADRpy/data/_MHDBK310: files by name *)
Definition handbook_lines : list (string * list string) :=
  [("high_dens_at_10km.m310", lines_high_dens_at_10km);
   ("high_dens_at_20km.m310", lines_high_dens_at_20km);
   ("high_dens_at_5km.m310", lines_high_dens_at_5km);
   ("high_temp_at_10km.m310", lines_high_temp_at_10km);
   ("high_temp_at_20km.m310", lines_high_temp_at_20km);
   ("high_temp_at_5km.m310", lines_high_temp_at_5km);
   ("low_dens_at_10km.m310", lines_low_dens_at_10km);
   ("low_dens_at_20km.m310", lines_low_dens_at_20km);
   ("low_dens_at_5km.m310", lines_low_dens_at_5km);
   ("low_temp_at_10km.m310", lines_low_temp_at_10km);
   ("low_temp_at_20km.m310", lines_low_temp_at_20km);
   ("low_temp_at_5km.m310", lines_low_temp_at_5km)].
