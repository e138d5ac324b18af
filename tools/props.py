#!/usr/bin/env python3
"""Single source of the property list: writes /verif/properties.jsonl."""
import json, os
P = []
def p(id, title, statement, quantifier, why, anchors):
    P.append(dict(id=id, title=title, statement=statement, quantifier=quantifier,
                  why_tests_cant=why, anchors=anchors))
SAC='include/opengv/sac/implementation/'
p('C01','Sample draws are without replacement and never damage the index pool',
  'Every sample handed out by a sample-consensus problem consists of entries of the index set taken at pairwise distinct positions, and after any number of draws the internal pool is still a permutation of the index set that was configured, so no correspondence is ever lost or duplicated.',
  'all index sets, all sample sizes not exceeding the set, all random number streams, all histories of previous draws',
  'the pool is mutated by every draw, so the claim is about unbounded histories and arbitrary generator outputs',
  [SAC+'SampleConsensusProblem.hpp: drawIndexSample, setIndices, setUniformIndices'])
p('C02','getSamples has exactly three outcomes',
  'getSamples either reports that there are too few indices (empty sample and iteration counter set to INT_MAX), or returns a sample of exactly the requested size that passes the sample check, or, after exactly ten rejected draws, returns an empty sample with the counter unchanged.',
  'all index sets, sample sizes, sample checks and random streams',
  'depends on user supplied virtual checks and arbitrary random streams',
  [SAC+'SampleConsensusProblem.hpp: getSamples'])
p('C03','RANSAC always terminates, within its budget',
  'Ransac::computeModel returns for every problem: it evaluates at most max_iterations+1 hypotheses and suffers at most 10*max_iterations rejected ones.',
  'all problems (arbitrary stateful solvers, scores incl. NaN), all thresholds, probabilities, libm log/pow results, all max_iterations up to INT_MAX/10',
  'the loop bound k is recomputed from floating-point logarithms on every improvement; termination for every oracle cannot be sampled',
  [SAC+'Ransac.hpp: computeModel'])
p('C04','RANSAC returns the best hypothesis it evaluated',
  'When computeModel succeeds on a fresh object, the stored model is one of the hypotheses evaluated in that run, no evaluated hypothesis had more inliers, and it is the earliest one with that many; the stored sample is the one that generated it.',
  'all problems, all random streams, all run lengths',
  'requires an invariant over every iteration of an unbounded loop with arbitrary solvers',
  [SAC+'Ransac.hpp: computeModel, model_, model_coefficients_'])
p('C05','Reported inliers are exactly the sub-threshold correspondences',
  'selectWithinDistance returns, in index order, exactly the indices whose score is strictly below the threshold (NaN scores are never inliers), countWithinDistance is its length, and the inlier set reported by a successful RANSAC run is that of the stored model.',
  'all score vectors (incl. NaN/inf), thresholds, index sets',
  'universally quantified over IEEE values and index sets of any size',
  [SAC+'SampleConsensusProblem.hpp: selectWithinDistance, countWithinDistance', SAC+'Ransac.hpp'])
p('C06','RANSAC success means a model was found',
  'On a fresh object, computeModel returns true iff at least one hypothesis was evaluated during the run; when it returns false the inlier set is empty.',
  'all problems and runs', 'needs the full loop invariant for arbitrary solvers',
  [SAC+'Ransac.hpp: computeModel'])
p('C07','What a reused RANSAC object reports',
  'A user expects that calling computeModel a second time on the same object reports success only if the second run evaluated a hypothesis. The code does not give this: the previous model is never reset, so there are histories in which the second call reports success with the model and sample of the first (shown by a witness). What holds is that a run on an object without a stored model reports success only with a hypothesis evaluated in that run.',
  'all histories of two or more calls', 'a history property',
  [SAC+'Ransac.hpp: computeModel (model_ never cleared)', SAC+'Lmeds.hpp', SAC+'MultiRansac.hpp'])
p('C08','max_iterations is exceeded by exactly one',
  'max_iterations is documented as the maximum number of iterations, but the code may evaluate one hypothesis more (the check is > after the increment; shown by a witness) and never more than that, except that with max_iterations = 0 nothing is evaluated at all.',
  'all problems and settings', 'boundary behaviour over all solver behaviours',
  [SAC+'Ransac.hpp: 65,130', 'include/opengv/sac/SampleConsensus.hpp: max_iterations_'])
p('C09','The adaptive stopping rule gives the advertised confidence',
  'With inlier ratio w and sample size n, after k iterations the probability that all samples were contaminated, (1-w^n)^k, is at most 1-probability; k is positive and never increases when a better model is found.',
  'all ratios in [0,1], all sample sizes >= 1, all probabilities in (0,1), exact real arithmetic',
  'continuous quantification over w and probability', [SAC+'Ransac.hpp: 99-113', SAC+'MultiRansac.hpp: 112-122'])
p('C10','Runs are reproducible: outcome depends only on consumed random numbers',
  'Two runs whose random streams agree on the numbers consumed produce the same sample, pool and result, and the number of random numbers consumed is bounded by ten times the sample size per request.',
  'all pairs of random streams, all problems', 'relational (two-run) property over all streams',
  [SAC+'SampleConsensusProblem.hpp: rnd, drawIndexSample'])
p('C11','Integer arithmetic of the loop budget does not overflow in the usable range',
  'For 0 <= max_iterations <= INT_MAX/10 no signed overflow happens in computeModel; outside this range the skip budget computation overflows (undefined behaviour).',
  'all int values of max_iterations', 'exhaustive over 2^32 configurations and all runs',
  [SAC+'Ransac.hpp: max_skip', SAC+'Lmeds.hpp: max_skip', SAC+'MultiRansac.hpp: max_skip'])
p('C12','LMedS returns the hypothesis with the least median score',
  'Lmeds::computeModel terminates after at most max_iterations evaluated hypotheses; on a fresh object the stored model is an evaluated hypothesis whose median squared (clipped) score is minimal, the earliest such.',
  'all problems and random streams (scores are numbers)', 'unbounded loop and arbitrary score vectors',
  [SAC+'Lmeds.hpp: computeModel'])
p('C13','LMedS and RANSAC agree on what an inlier is',
  'The inliers reported by Lmeds are exactly the indices with score <= threshold; they equal the RANSAC inliers unless a score equals the threshold. On failure the inliers of an earlier run survive (violation of the RANSAC contract).',
  'all score vectors and thresholds', 'boundary values over IEEE numbers, and history',
  [SAC+'Lmeds.hpp: 168-193'])
p('C14','Multi-camera RANSAC: termination, best model, per-camera inliers',
  'MultiRansac::computeModel terminates in the same budget, returns the evaluated model with the largest total inlier count, and the inliers it reports for each camera are exactly the sub-threshold indices of that camera.',
  'all numbers of cameras, problems, random streams', 'unbounded loop, arbitrary shapes',
  [SAC+'MultiRansac.hpp', SAC+'MultiSampleConsensusProblem.hpp'])
p('C15','Multi-camera RANSAC with one camera is RANSAC',
  'On a single-camera multi problem MultiRansac performs step by step the same run as Ransac on the flattened problem: same models, same inliers, same iteration count.',
  'all single-camera problems and random streams', 'a simulation between two unbounded loops',
  [SAC+'MultiRansac.hpp', SAC+'Ransac.hpp'])
p('C16','Multi-camera index serialisation is a bijection',
  'For every multi adapter, converting (camera, correspondence) to a serial index and back is the identity in both directions, serial indices are exactly 0..N-1, and serial access returns the data of the corresponding camera-wise access.',
  'all numbers of cameras and correspondences per camera (including empty cameras)', 'all shapes',
  ['src/absolute_pose/NoncentralAbsoluteMultiAdapter.cpp','src/relative_pose/CentralRelativeMultiAdapter.cpp','src/relative_pose/NoncentralRelativeMultiAdapter.cpp','src/relative_pose/MANoncentralRelativeMulti.cpp'])
p('C17','Sample sizes are spread evenly over the cameras',
  'getSampleSizes of the multi-camera problems distributes the required number of samples so that they sum to the requirement and no two cameras differ by more than one, for every stream of rand() results below RAND_MAX. If rand() returns RAND_MAX, or there is no camera, the function writes out of bounds (shown by witnesses).',
  'all camera counts, all rand() results', 'the failing rand() value has probability 2^-31',
  ['src/sac_problems/absolute_pose/MultiNoncentralAbsolutePoseSacProblem.cpp: getSampleSizes','src/sac_problems/relative_pose/MultiNoncentralRelativePoseSacProblem.cpp: getSampleSizes'])
p('C18','Round-robin serialisation visits every sampled correspondence once',
  'The serial index list built for the six-point solver terminates and is a permutation of all sampled multi-indices, visiting cameras in round-robin order.',
  'all shapes of samples and valid start cameras', 'nested while loops over arbitrary shapes',
  ['src/sac_problems/relative_pose/MultiNoncentralRelativePoseSacProblem.cpp: 70-115'])
p('C19','Multi-camera relative scores are right for selections 0,1,2,... and wrong for others',
  'A user expects the score reported for the i-th selected index of a camera to be the reprojection error of that very correspondence. For the multi-camera relative problems this holds, for every camera and every pose, when each selection is 0,1,2,...; for other selections it does not hold, because the bearing vectors are fetched by loop position: a noise-free inlier can get an arbitrary score (shown by a witness).',
  'all selections', 'only wrong for non-uniform selections; all selections quantified',
  ['src/sac_problems/relative_pose/MultiNoncentralRelativePoseSacProblem.cpp: 318-321','src/sac_problems/relative_pose/MultiCentralRelativePoseSacProblem.cpp: 154-155'])
p('C20','Minimal solver disambiguation picks the candidate with smallest error',
  'When a solver yields several candidate poses, computeModelCoefficients returns the (first) candidate with the least error on the disambiguation point(s); with no candidates it reports failure, with exactly one it returns it.',
  'all candidate lists and scores', 'arbitrary candidate lists',
  ['src/sac_problems/absolute_pose/AbsolutePoseSacProblem.cpp: computeModelCoefficients','src/sac_problems/absolute_pose/MultiNoncentralAbsolutePoseSacProblem.cpp','src/sac_problems/relative_pose/CentralRelativePoseSacProblem.cpp'])
p('C21','Absolute pose score: range and zero',
  'For unit bearing vectors the score of a correspondence is in [0,2]; it is 0 iff the bearing vector points exactly at the reprojected point, 2 iff exactly away; in particular noise-free correspondences score 0 under the true pose for every camera mount.',
  'all poses, camera mounts, points and unit bearing vectors', 'continuous quantification',
  ['src/sac_problems/absolute_pose/AbsolutePoseSacProblem.cpp: getSelectedDistancesToModel'])
p('C22','Multi-central hypotheses are never filled in',
  'Scoring by MultiCentralRelativePoseSacProblem needs one transformation per camera pair, and is in range and correct on initial selections when it gets them. Its own computeModelCoefficients does not provide them: for every input it reports success and leaves the output model untouched, so that scoring the freshly hypothesised (empty) model reads out of bounds.',
  'all inputs', 'universal', ['src/sac_problems/relative_pose/MultiCentralRelativePoseSacProblem.cpp: 104-113,128'])
p('C23','Index lists and adapters address the right data',
  'Running a method on all correspondences equals running it with the explicit list 0..n-1; array-backed adapters return for correspondence i exactly the i-th packed record.',
  'all adapters, index lists', 'all sizes', ['include/opengv/Indices.hpp','src/absolute_pose/MACentralAbsolute.cpp','src/absolute_pose/MANoncentralAbsolute.cpp','src/relative_pose/MANoncentralRelative.cpp','src/point_cloud/MAPointCloud.cpp'])
p('C24','Every Cayley vector maps to a rotation',
  'cayley2rot returns an orthogonal matrix with determinant +1 for every parameter vector; cayley2rot_reduced is the same matrix scaled by 1+|c|^2.',
  'all vectors in R^3', 'continuous quantification', ['src/math/cayley.cpp: cayley2rot, cayley2rot_reduced'])
p('C25','Cayley conversions are mutually inverse',
  'rot2cayley(cayley2rot(c)) = c for all c, and cayley2rot(rot2cayley(R)) = R for every rotation R that is not a half-turn; for half-turns the conversion is singular.',
  'all vectors, all rotations', 'continuous quantification, singular set of measure zero', ['src/math/cayley.cpp: rot2cayley'])
p('C26','Quaternion to rotation',
  'quaternion2rot of a unit quaternion is a rotation, it rotates vectors as quaternion conjugation does, q and -q give the same rotation, and a non-unit quaternion is not normalised: the result is then no rotation.',
  'all quaternions', 'continuous quantification', ['src/math/quaternion.cpp: quaternion2rot'])
p('C27','Rotation to quaternion round trip',
  'quaternion2rot(rot2quaternion(R)) = R exactly for the rotations whose quaternion has no vanishing component; for every other rotation, including the identity, the conversion yields NaN (0/0 in the sign computation).',
  'all rotations', 'violations are on a measure-zero set', ['src/math/quaternion.cpp: rot2quaternion'])
p('C28','Arun alignment yields a proper rotation',
  'For every singular value decomposition the linear algebra library may return, arun() returns an orthogonal matrix with determinant +1.',
  'all cross-covariance matrices and all valid SVDs of them', 'the SVD is not unique; all of them are quantified', ['src/math/arun.cpp: arun'])
p('C29','Arun alignment is optimal',
  'The rotation returned by arun() maximises trace(R*H) over all rotations, i.e. minimises the sum of squared alignment errors.',
  'all matrices H, all valid SVDs, all competing rotations', 'optimality over a continuum', ['src/math/arun.cpp: arun'])
p('C30','Point cloud alignment recovers an exact rigid motion',
  'If points1 = R*points2 + t for a rotation R, threept_arun / arun_complete returns a transformation that maps points2 exactly to points1, whatever the number of points >= 1; when the cloud is not collinear the transformation is (R,t).',
  'all point clouds of any size, all rigid motions, all valid SVDs', 'continuous quantification and any size', ['src/point_cloud/methods.cpp: threept_arun','src/math/arun.cpp: arun_complete'])
p('C31','Gauss-Jordan elimination preserves the solution set',
  'For a matrix with at least as many columns as rows gauss_jordan reports a zero pivot exactly if the leading square block is singular; otherwise a vector is annihilated by the output rows if and only if it is annihilated by the input rows, and from row exitCondition on the leading block of the output is the identity. This needs every compared value to be zero or above the precision 1e-10; with smaller nonzero entries the solution set changes. Fewer columns than rows, ragged rows, no rows and a negative exitCondition are out-of-range accesses.',
  'all matrices of any size, all precisions below 1, all exit conditions', 'any size, all values', ['src/math/gauss_jordan.cpp: gauss_jordan'])
p('C32','Sturm sign changes count real roots',
  'For a polynomial with a regular Sturm chain, the difference of evaluateChain at a and b is the number of distinct real roots strictly between them; a root at a is counted when the polynomial increases there, a root at b when it decreases there. (A square-free polynomial whose chain has a vanishing leading coefficient, such as x^4-1, divides by zero instead.)',
  'all polynomials with regular chain, all intervals', 'Sturm theorem, continuous quantification', ['src/math/Sturm.cpp: Sturm, evaluateChain, evaluateChain2, computeNegatedRemainder'])
p('C33','Root bracketing is complete',
  'bracketRoots terminates and returns exactly one value per distinct real root, each closer than eps/2 to its root (or bound/(20 n) for the default tolerance), provided no root lies exactly on the bound; findRoots returns as many values as there are roots. (Roots exactly on the bound can be lost: x^2-1 is reported rootless.)',
  'all polynomials of degree >= 2 with regular chain, all eps > 0', 'unbounded subdivision', ['src/math/Sturm.cpp: bracketRoots, Bracket'])
p('C34','The root bound is valid',
  'For degree >= 2 all real roots lie within plus or minus computeLagrangianBound(). (For degree 1 the value is one too small: 2x-1 has root 1/2 and bound -1/2.)',
  'all polynomials of degree >= 2 with nonzero leading coefficient', 'continuous quantification', ['src/math/Sturm.cpp: computeLagrangianBound'])
p('C35','Root search with built-in polishing',
  'If findRoots2 returns, its values stand one for one for the distinct real roots, each in an interval with no other root and either closer than eps_x/2 or with residual below eps_val; it returns whenever its inner Newton loops do. (Termination for every polynomial is violated: on x^5+5x^4+6x^3-2x^2+4x+8, which has one simple real root, the Newton loop alternates between 0 and -2 for ever.)',
  'all polynomials of degree >= 2 with regular chain, all tolerances', 'non-termination cannot be observed by tests', ['src/math/Sturm.cpp: findRoots2'])
p('C36','The closed-form cubic and quartic solvers return the roots',
  'o3_roots returns three numbers, the real parts of the three complex roots: every real root is among them, the first is always a root and all three are if the discriminant is positive. o4_roots returns the real parts of the four complex roots, so every real root is among them. (Violated in degenerate cases: for x^3-1 and x^4-1 the code divides by zero.)',
  'all coefficients outside the degenerate cases named', 'continuous quantification', ['src/math/roots.cpp: o3_roots, o4_roots'])
p('C37','Mid-point triangulation',
  'triangulate2 returns the true point for noise-free non-parallel rays, and in general the mid-point of the shortest segment between the two rays.',
  'all relative poses and non-parallel bearing vectors', 'continuous quantification', ['src/triangulation/methods.cpp: triangulate2'])
p('C38','Linear triangulation',
  'triangulate returns the true point for noise-free non-parallel rays for every SVD that may be returned, provided neither bearing vector is orthogonal to the optical axis. (Otherwise violated: with f1 = (1,0,0) the linear system is rank deficient and a valid SVD gives an infinite result.)',
  'all relative poses, points and valid SVDs', 'continuous quantification', ['src/triangulation/methods.cpp: triangulate'])
p('C39','Two-point translation with known rotation',
  'twopt returns a translation direction satisfying both epipolar constraints; with unrotate set the sign is such that the optical flow condition holds, and for noise-free data it is the true direction.',
  'all rotations, translations and point pairs in general position', 'continuous quantification', ['src/relative_pose/methods.cpp: twopt'])
p('C40','Rotation-only estimation',
  'twopt_rotationOnly and rotationOnly return a rotation, and recover the exact rotation from noise-free bearing vectors.',
  'all rotations and bearing vectors, any number of correspondences', 'continuous quantification, any size', ['src/relative_pose/methods.cpp: twopt_rotationOnly, rotationOnly'])
p('C41','Two-point absolute position with known rotation',
  'p2p recovers the camera position exactly from two noise-free correspondences in general position, for every camera rotation, unless the difference of the world points is a multiple of (1,1,0) or (1,-1,0), where it returns the origin (division by zero); it never returns NaN.',
  'all poses and points', 'continuous quantification', ['src/absolute_pose/methods.cpp: p2p'])
p('C42','Kneip P3P recovers the pose from three rays',
  'For unit bearings p3p_kneip returns nothing for collinear world points and four transformations otherwise. Every finite one is a rigid motion that puts the first two points on their rays, one of them in front. The i-th belongs to the i-th root of a quartic in the cosine of the angle between the plane of the first two rays and the plane of the points, and the cosines of all fitting poses are roots of it: if the root is real, the third point lies in front of the camera on its ray or opposite to the ray mirrored at the plane of the first two bearings (so a real root can give a wrong pose: shown). For three points in front of a camera the true pose is among the four results unless they are all NaN - provided the bearings are not coplanar, one specific angle of their spherical triangle is not right, and the third point is off the right cylinder over the circle through the camera and the first two points. With that right angle (for instance for mutually orthogonal bearings) all results are NaN.',
  'all triples of points and unit bearing vectors, all camera poses', 'continuous quantification', ['src/absolute_pose/methods.cpp: p3p_kneip','src/absolute_pose/modules/main.cpp: p3p_kneip_main','src/math/roots.cpp: o4_roots'])
p('C43','Gao P3P recovers the pose from three rays',
  'For unit bearings and non-collinear points p3p_gao returns nothing, four transformations of NaNs, or four entries belonging to the roots of the quartic whose real roots are the ratios of the first to the third distance allowed by the cosine laws; the entry of a real root is NaN or a rigid motion that sees the three points along their bearings, the third in front of the camera. Every pose that sees the points, the third in front, is returned (unless all results are NaN) outside three singular cases. In those valid poses are lost: for bearings satisfying a coplanarity test that compares with the wrong constant and for one relation between an angle of the triangle and of the bearings nothing is returned, and in symmetric configurations such as a regular triangle seen from its axis, or orthogonal bearings, every result is NaN. Poses with the first two points behind the camera are returned too (shown).',
  'all triples of points and unit bearing vectors, all camera poses', 'continuous quantification', ['src/absolute_pose/methods.cpp: p3p_gao','src/absolute_pose/modules/main.cpp: p3p_gao_main'])
p('C44','The eigensolver matrix is the sum of normal-vector outer products',
  'For any number of correspondences, any weights and any Cayley vector, the matrix of eigensolver equals (1+|c|^2)^2 times the sum of w*n*n^T with n = f1 x R f2; it is symmetric positive semidefinite, and for positive weights its kernel is the set of translations satisfying all epipolar constraints. For any outcome of the optimisation eigensolver returns a proper rotation, eigenvalues in decreasing order and a translation along the last eigenvector oriented by the optical flow; if the optimisation finds the true rotation of noise-free data, the returned translation is a positive multiple of the true one.',
  'all correspondence sets of any size, weights, rotations; all eigenvector bases', 'any size, continuous', ['src/relative_pose/modules/eigensolver/modules.cpp: composeM','src/relative_pose/methods.cpp: eigensolver','src/relative_pose/modules/main.cpp: eigensolver_main'])
p('C45','Closed-form smallest eigenvalue',
  'getSmallestEV returns an eigenvalue of M that is a lower bound for every Rayleigh quotient of M, whenever M is not a multiple of the identity. (For multiples of the identity, e.g. the zero matrix of noise-free pure rotation, it divides zero by zero.)',
  'all symmetric matrices', 'continuous quantification', ['src/relative_pose/modules/eigensolver/modules.cpp: getSmallestEV'])
p('C46','The analytic Jacobian of the eigensolver is the derivative',
  'The Jacobian matrices returned by composeMwithJacobians are the exact partial derivatives of composeM with respect to the three Cayley parameters, and wherever the eigenvalues are distinct the Jacobian returned by getSmallestEVwithJacobian is the gradient of the smallest eigenvalue.',
  'all inputs and parameters', 'finite differences only test points', ['src/relative_pose/modules/eigensolver/modules.cpp: composeMwithJacobians, getSmallestEVwithJacobian'])
p('C47','The generalized eigensolver',
  'For every rotation and every set of correspondences of a multi-camera rig, the 4x4 matrix used by ge is symmetric, positive semidefinite and, up to a positive factor, the weighted sum of squared generalized epipolar constraints; the matrices returned with it are its partial derivatives. Whatever the descent finds, ge returns a rotation, eigenvalues in decreasing order and the homogeneous translation minimising that sum for its rotation. On noise-free data that determine the translation, the true rotation gives the true metric translation.',
  'all correspondences, weights, camera mounts and rotations', 'continuous; any number of correspondences', ['src/relative_pose/methods.cpp: ge','src/relative_pose/modules/ge/modules.cpp: composeG, composeGwithJacobians','src/relative_pose/modules/main.cpp: ge_main2'])
p('C48','Essential matrix decomposition',
  'The four candidate poses derived from an essential matrix are proper rotations and translations of the right scale; for a true essential matrix [t]xR the true pose (up to translation sign and scale) is among them.',
  'all essential matrices, all valid SVDs', 'SVD non-uniqueness, continuous', ['src/sac_problems/relative_pose/CentralRelativePoseSacProblem.cpp: computeModelCoefficients'])
p('C49','Seven- and eight-point solvers',
  'eightpt returns a matrix of rank at most two, namely the singular matrix closest to a unit matrix of least algebraic error, and a nonzero multiple of the essential matrix for noise-free data that determine it. For seven correspondences every matrix returned by sevenpt satisfies all seven epipolar constraints and has zero determinant; for independent constraints every singular solution is returned up to scale if neither null-space matrix is singular. (Otherwise violated: if the last null-space vector happens to be a singular matrix, it is the only result and the true essential matrix is lost.)',
  'all correspondences, all valid decompositions', 'continuous quantification, any number of correspondences', ['src/relative_pose/methods.cpp: sevenpt, eightpt'])
p('C50','Five-point solver of Stewenius',
  'The 10x20 coefficient matrix of the solver vanishes at (x,y,z) exactly if E = xX+yY+zZ+W is singular and satisfies the nine trace constraints. Every solution is an eigenvector of the action matrix. From five independent correspondences the true essential matrix is among the ten results, up to sign and scale, whenever the block to invert is regular, its eigenvalue is simple and it is not orthogonal to the last null space vector (in which case it is never returned). All results satisfy the epipolar constraints of the five correspondences and are normalised.',
  'all null space bases, all x,y,z, all correspondences and motions, all valid decompositions', '36-variate polynomial identities; continuous', ['src/relative_pose/methods.cpp: fivept_stewenius','src/relative_pose/modules/main.cpp: fivept_stewenius_main','src/relative_pose/modules/fivept_stewenius/modules.cpp: composeA'])
p('C51','Five-point solver of Nister',
  'The 10x20 coefficient matrix of the solver vanishes at (x,y,z) exactly if E = xX+yY+zZ+W is singular and satisfies the nine trace constraints. The tenth-order polynomial is the determinant of the 3x3 polynomial matrix; every solution is a root of it, and at every root with nonzero denominator the quotients x and y annihilate that matrix. From five independent correspondences the true essential matrix is returned up to sign and scale whenever the block to invert is regular, the root finder reports its root and the denominator does not vanish there. All results satisfy the epipolar constraints and have unit norm. (If two solutions share z, the division is by zero and both are lost.)',
  'all null space bases, all x,y,z, all correspondences and motions, any root finder and refinement', 'continuous', ['src/relative_pose/methods.cpp: fivept_nister','src/relative_pose/modules/fivept_nister/modules.cpp: composeA, polyVal, compute*OrderPolynomial*, pollishCoefficients','src/relative_pose/modules/main.cpp: fivept_nister_main'])
p('C52','Camera-to-body conversions',
  'Poses computed in the camera frame are converted so that the body pose composed with the camera mount gives back the camera pose, for absolute and relative problems; the direct camera-to-camera motion used for scoring is the conjugation of the body motion with the mounts.',
  'all poses and mounts', 'continuous', ['src/sac_problems/absolute_pose/AbsolutePoseSacProblem.cpp: 51-73','src/sac_problems/relative_pose/NoncentralRelativePoseSacProblem.cpp: 202-211,237-241'])
p('C53','Relative pose score: range, zero, and insensitivity to adapter state',
  'The relative pose score of a correspondence is in [0,4] for unit bearing vectors, is 0 for noise-free correspondences with positive depth under the true pose, and does not depend on the pose stored in the adapter before the call.',
  'all poses, bearing vectors, adapter states', 'continuous; history', ['src/sac_problems/relative_pose/CentralRelativePoseSacProblem.cpp: getSelectedDistancesToModel'])
p('C54','Effect of scoring on the pose stored in the adapter',
  'Scoring by the eigensolver problem leaves the pose prior stored in the user adapter unchanged. Scoring by the central, non-central and translation-only problems does not: afterwards the adapter holds the motion last scored. For the translation-only problem, which reads its rotation back from the adapter, this never changes later hypotheses as long as the scored models are its own.',
  'all adapters, models, index lists', 'a property of call histories', ['src/sac_problems/relative_pose/*: getSelectedDistancesToModel'])
p('C55','UPnP minimises the object-space error and recovers the pose',
  'For unit bearings upnp is defined exactly when two bearings are not parallel. Its polynomial cost at a quaternion is the sum of squared distances from the transformed points to their rays at the best translation; the translation it returns is that unique best one. The candidates are unit quaternions ordered by increasing cost, one per eigenvector (none closer than 1e-5 when the non-symmetric solver is used). The polishing step is one Newton step with the exact gradient and Hessian of the cost on the rotation group; every returned matrix is a rotation. If the points are in front of their cameras in the true pose and its quaternion is a candidate, the true pose is among the results - except when a component of its quaternion is zero (e.g. the identity), where the returned translation is NaN. Two candidates can still be the same rotation (q and -q with zero scalar part).',
  'all correspondences, any number of points and cameras, all eigenvector lists', 'continuous and any list', ['src/absolute_pose/methods.cpp: upnp, fill3x10, f, Jac','src/absolute_pose/modules/main.cpp: upnp_fill_s, upnp_main, upnp_main_sym'])
p('C56','GPnP recovers the pose from noise-free data of full rank',
  'The control-point weights of gpnp sum to one and reproduce every world point, for any number of points and any rig; the first control point is the centroid. The control points of the true pose satisfy its linear system. With at least six points, all twelve singular values above the cut-off and no control point at the body origin, gpnp returns exactly the true pose, whatever its later stages do. If instead the last singular values are zero, coefficients of the null space vectors exist that give the true control points, their distances and the pose. The pose returned is that of the candidate with the smallest error, whenever the error of the first candidate is a number.',
  'all correspondences, rigs, poses; any number of points; any refinement', 'continuous, any size', ['src/absolute_pose/methods.cpp: gpnp','src/absolute_pose/modules/main.cpp: gpnp_main, gpnp_evaluate'])
p('C57','GP3P accepts eigenvalues with negative imaginary part',
  'gp3p is meant to use only eigenvalues that are (numerically) real. It sets up exactly the equations "some pose sees the three points", an eigenvector proportional to the monomials of the true solution gives exactly the true pose, and every output has a proper rotation. It accepts every real eigenvalue and rejects those with imaginary part >= 1e-4, but the check misses the absolute value: from every complex-conjugate pair it accepts the member with negative imaginary part, so complex pairs produce spurious poses.',
  'all bearing vectors, offsets, points, poses that are no half turn; all eigenvalues and eigenvectors', 'continuous', ['src/absolute_pose/modules/main.cpp: gp3p_main 409'])
p('C58','Sampling is unbiased',
  'For a pool of n distinct indices, every ordered sample of k distinct indices is produced by exactly one sequence of random choices (the i-th out of n-i possibilities), so under uniformly distributed random numbers all ordered samples are equally likely up to modulo bias.',
  'all pools up to 2^64, all samples, all random streams', 'bijection between choice sequences and samples; all pool sizes', [SAC+'SampleConsensusProblem.hpp: drawIndexSample'])
p('C59','Closed-form cost of the generalized eigensolver',
  'The cost minimised by ge is the smallest eigenvalue of its 4x4 matrix (and, for the test of wrong minima, the second smallest): it is nonnegative and zero exactly where some homogeneous translation satisfies every generalized epipolar constraint. When three eigenvalues coincide, e.g. for a pure rotation of a central camera, the cost of the true rotation is NaN.',
  'all symmetric 4x4 matrices; all correspondences and rotations', 'continuous', ['src/relative_pose/modules/ge/modules.cpp: getEV, getCost'])
p('C60','Search of the generalized eigensolver ends and never worsens',
  'ge terminates for every input: its doubling, halving, iteration and trial loops end for any objective function, any random numbers and any starting rotation, after at most five trials. The rotation returned is where the last trial ended, and along a trial the objective never rises (it ends not above its value at the start of the trial, or NaN). Where the three forward differences vanish in double arithmetic the returned rotation is NaN.',
  'all objective functions, random draws, starting vectors, all binary64 rounding', 'loops whose bound depends on floating point halving; every objective and random sequence', ['src/relative_pose/modules/main.cpp: ge_main2', 'src/relative_pose/modules/ge/modules.cpp: getQuickJacobian'])
p('C61','Generated elimination templates of GPnP return the solution',
  'gpnp looks for the coefficients of 1 to 5 null space vectors that give the control points their known mutual distances, with five generated elimination programs. Whenever such a program runs without a division by zero and the wanted coefficients exist, what it returns are exactly those coefficients, for any intercept, any null space vectors and any control points (in particular the solution is then unique). The program for five vectors returns the first four correctly but its last coefficient is wrong in general, because one product in its back substitution uses the wrong factor.',
  'all intercepts, null space vectors and control points', 'straight-line programs of up to 700 steps over continuous inputs', ['src/absolute_pose/modules/gpnp1..gpnp5: init, compute, sPolynomial*, groebnerRow*','src/absolute_pose/modules/main.cpp: gpnp_main 470-565'])
p('C62','GPnP null space stages are started with coincident control points',
  'The stages of gpnp for one to five null space vectors should start from coefficients that give the control points their true mutual distances. They receive the first control point four times instead: the starting coefficients do not depend on the other control points, and for one to four vectors there are data for which correct coefficients exist but others are returned.',
  'all intercepts, null space vectors, control points', 'continuous; the defect is masked by later refinement on typical data', ['src/absolute_pose/modules/main.cpp: gpnp_main 452-455'])
p('C63','GPnP ignores the bearing vectors of a central camera',
  'For a central camera (all camera offsets zero) gpnp should return the pose like any other absolute pose solver. It returns a pose that depends on the world points only, for every list of bearing vectors and every singular value decomposition, so it is wrong for every camera position but one.',
  'all world points, bearing vectors, poses, any number of points', 'a NaN that silently wins a comparison; holds for every input', ['src/absolute_pose/methods.cpp: gpnp','src/absolute_pose/modules/main.cpp: gpnp_main 575-588, gpnp_evaluate'])
p('C64','Least squares inside EPnP is exact, but can give up on solvable systems',
  'The Householder solver that epnp uses in every Gauss-Newton step, for any number of rows and columns, either leaves its result untouched or stores the unique least squares solution. It never divides by zero, a matrix without full column rank is always detected, and the result does not depend on what earlier calls left in its static work arrays. It should succeed for every matrix of full column rank; it does when the last row is zero, but its search for the largest entry skips the last row, so there is a full-rank 6x4 system on which it gives up and returns the caller\'s uninitialised vector.',
  'all matrices of any size, right-hand sides, histories of the static arrays and initial contents of the result', 'exactness for all real inputs; the failing inputs have measure zero; depends on the history of calls', ['src/absolute_pose/modules/Epnp.cpp: qr_solve 714-826'])
p('C65','EPnP is not safe to call from two threads',
  'epnp takes only const arguments, so two threads should be able to run it on different data. When the two calls of the inner least squares solver do not overlap in time, each returns what it returns alone, whatever order they run in. But their work arrays are static: there is an interleaving of two calls, both of which would return their least squares solution alone, after which the first returns something else.',
  'all data, all serial schedules; an explicit interleaving', 'depends on the schedule of two threads', ['src/absolute_pose/modules/Epnp.cpp: qr_solve 722-738'])
p('C66','EPnP: weights and linear system are exact',
  'With control points that span space, the four weights of every point sum to one and reproduce the point. A vector solves the linear system exactly when the four points it holds put every world point onto the line of its bearing vector. The control points seen from the true camera solve it, and the 12x12 matrix the code decomposes has the same solutions.',
  'all control points in general position, all lists of correspondences of any length, all poses','Tests compare the final pose for a few random scenes, not the meaning of the system for all of them.',
  ['src/absolute_pose/modules/Epnp.cpp: compute_barycentric_coordinates, fill_M, compute_pose','src/absolute_pose/methods.cpp: epnp'])
p('C67','EPnP: the six equations are the distances between control points',
  'The residual of every equation that the coefficients have to meet is the squared distance of two control points in the world minus that of the points built from the coefficients, all six pairs occur, and the matrix of the refinement step is the exact derivative of the residuals.',
  'all null space bases, all coefficients, all control points','A wrong entry in one of 60 products only slows down or biases the refinement in some scenes.',
  ['src/absolute_pose/modules/Epnp.cpp: compute_L_6x10, compute_rho, compute_A_and_b_gauss_newton, compute_ccs'])
p('C68','EPnP returns the true pose for exact data',
  'If all points are seen along their bearing vectors, the only affine maps that keep every point on its line are multiples of the true one, and the system for the first approximation has full rank, then EPnP returns exactly the true pose, whatever the number of points and whether the bearing vectors point forwards or backwards along the optical axis.',
  'all poses, all scenes of any size that meet these conditions, all singular value decompositions','Simulated tests check a tolerance for a few scenes.',
  ['src/absolute_pose/modules/Epnp.cpp: compute_pose','src/absolute_pose/methods.cpp: epnp','include/opengv/absolute_pose/methods.hpp: epnp'])
p('C69','EPnP fails for every planar scene',
  'The control points span space exactly when the points are not in one plane. For points in one plane no pose comes out, even for scenes that determine the pose uniquely.',
  'all planar scenes, all poses, all decompositions','Random test points are never in one plane.',
  ['src/absolute_pose/modules/Epnp.cpp: choose_control_points, compute_barycentric_coordinates'])
p('C70','EPnP: rotation, candidate choice and bearing vectors it cannot use',
  'A result always contains a rotation. The error used to compare candidates is zero exactly when every point is on the line of its bearing vector. If the first candidate has an error that is a number, no candidate is better than the result; if it is NaN the first candidate is returned. One bearing vector at a right angle to the optical axis makes EPnP return no pose.',
  'all inputs, all candidates','NaN candidates and exact right angles do not occur in random tests.',
  ['src/absolute_pose/modules/Epnp.cpp: compute_pose, estimate_R_and_t, reprojection_error, add_correspondence'])

p('C71','EPnP: starting coefficients and refinement steps',
  'From an exact solution of the linearised equations the three approximations recover one, two or three null space coefficients up to a common sign, the first one also when the solution comes out negated. A refinement step moves the coefficients by the least squares solution of the linearised distance equations. The second approximation should treat a negated solution like the first does, but it returns coefficients with the wrong relative sign.',
  'all coefficients, all systems', 'Errors in the starting point are hidden by the refinement for typical data.',
  ['src/absolute_pose/modules/Epnp.cpp: find_betas_approx_1, find_betas_approx_2, find_betas_approx_3, gauss_newton'])

p('C72','Nonlinear refinement of an absolute pose',
  'Whatever the Levenberg-Marquardt minimiser does, absolute_pose::optimize_nonlinear starts exactly at the pose stored in the adapter and returns a rotation and a translation. What it minimises is the sum of squares of the scores of the RANSAC inlier test, each of which is in [0,2] and zero exactly if the point lies on its bearing vector in front of its camera. With a minimiser that never increases the cost, the result is never worse than the start and stays exact if the start was. It should work from every rotation, but a start that is a half turn about any axis always gives NaN. Refining a consensus model ignores, and overwrites, the pose stored by the user.',
  'all adapters, index lists of any length, poses and minimisers', 'ranges over every minimiser and every pose; half turns are never drawn by random tests',
  ['src/absolute_pose/methods.cpp: optimize_nonlinear, OptimizeNonlinearFunctor1','src/sac_problems/absolute_pose/AbsolutePoseSacProblem.cpp: optimizeModelCoefficients','src/sac_problems/absolute_pose/MultiNoncentralAbsolutePoseSacProblem.cpp: optimizeModelCoefficients'])
p('C73','Nonlinear refinement of a relative pose, and what it leaves in the adapter',
  'The residuals of relative_pose::optimize_nonlinear are the scores of the inlier test of the non-central problem and do not depend on the pose stored in the adapter although each evaluation overwrites it; each is zero exactly if the two viewing rays meet in front of both cameras. The result is always a rotation and a translation, never worse than the start for a minimiser that does not increase the cost. Afterwards the adapter should still hold the pose the user stored; instead it holds the motion between the two cameras of the last correspondence for the parameters that were tried last. So the same call made twice can start and end elsewhere, even if the first call returned the stored pose.',
  'all adapters, index lists, minimisers, histories of evaluations', 'depends on the sequence of evaluations an external minimiser makes and on repeated calls',
  ['src/relative_pose/methods.cpp: optimize_nonlinear, OptimizeNonlinearFunctor1','src/sac_problems/relative_pose/CentralRelativePoseSacProblem.cpp: optimizeModelCoefficients','src/sac_problems/relative_pose/NoncentralRelativePoseSacProblem.cpp: optimizeModelCoefficients','src/sac_problems/relative_pose/TranslationOnlySacProblem.cpp: optimizeModelCoefficients'])
p('C74','Refinement of point-cloud and rotation-only models',
  'point_cloud::optimize_nonlinear minimises the sum of squared distances after the alignment, always returns a rotation, and can never beat the closed form threept_arun. Refining a consensus model of the point-cloud problem replaces it by the closed form: never worse on the inliers, and exact on exact inliers. Refining a rotation-only model returns a rotation that is exact for three different exact bearing pairs. Both ignore the model they are given.',
  'all point clouds, index sets, minimisers and models', 'optimality over all rotations and translations',
  ['src/point_cloud/methods.cpp: optimize_nonlinear, threept_arun','src/sac_problems/point_cloud/PointCloudSacProblem.cpp: optimizeModelCoefficients','src/sac_problems/relative_pose/RotationOnlySacProblem.cpp: optimizeModelCoefficients'])

p('C75','UPnP: every stationary point of the cost is an eigenvector',
  'The eigenvectors from which upnp reads its candidates contain every solution: for five or more correspondences, at each unit quaternion where the cost is stationary (in particular at the true pose of noise-free data), the listed monomials form an eigenvector of the action matrix for the square of the last component, so upnp returns the true pose of noise-free data in front of the cameras if that eigenvalue is simple and no component of the quaternion is zero. The same should hold for three and four correspondences, with the last component as eigenvalue; there the exact residual of the true solution is one dropped column of the eliminated matrix times a monomial, and for four points it is not zero: the true pose of noise-free data is not an eigenvector.',
  'all correspondences, all stationary points, all inputs on which the elimination succeeds', 'the elimination templates have 141 and 395 rows of generated code; correctness ranges over all coefficient matrices',
  ['src/absolute_pose/modules/upnp4.cpp: setupAction_sym_gj','src/absolute_pose/modules/upnp2.cpp: setupAction_gj','src/absolute_pose/modules/main.cpp: upnp_main, upnp_main_sym','src/absolute_pose/methods.cpp: upnp'])

p('C76','Seventeen-point solver for generalized cameras',
  'relative_pose::seventeenpt always returns a rotation and the translation that minimises the squared generalized epipolar errors for that rotation. For noise-free viewing rays that determine the essential matrix up to scale among all solutions of the linear constraints, and the motion among all rigid motions, it returns exactly the motion, scale included, whichever of the two rotations of the essential matrix comes first and also if the linear system for the rotation part is rank deficient. If all camera centres coincide with the body origin the returned translation is zero, whatever the motion.',
  'all sets of more than sixteen correspondences, all rigid motions with a translation, every correct singular value decomposition', 'exactness over all configurations; depends on the order and signs an external decomposition happens to choose',
  ['src/relative_pose/methods.cpp: seventeenpt'])

p('C77','Six-point solver for generalized cameras',
  'relative_pose::sixpt always returns 64 candidates, each a rotation or not a number. For noise-free viewing rays (bearing vectors of length one) that meet under a rigid motion, all sixty polynomial equations vanish at the Cayley parameters of the true rotation, and if the two matrices that the solver inverts are regular, the monomials of these parameters are an eigenvector of the action matrix for the third parameter. If that eigenvalue is simple the true rotation is among the candidates, whatever scale and order the eigensolver chooses. If all correspondences come from one camera, all equations are identically zero and the first matrix is singular: the solver can return nothing for a central camera.',
  'all sets of six correspondences, all rigid motions whose rotation has Cayley parameters, every correct inverse, linear solver and eigensolver', 'the polynomials have thousands of generated terms and the template 6510 generated assignments; correctness ranges over all coefficients',
  ['src/relative_pose/methods.cpp: sixpt','src/relative_pose/modules/main.cpp: sixpt_main','src/relative_pose/modules/sixpt/modules2.cpp: fillRow1, fillRow2, setupAction'])
p('C78','Five-point solver for the rotation (fivept_kneip)',
  'The ten equations that relative_pose::fivept_kneip sets up are, for every matrix, the determinants of the triples of epipolar plane normals. For noise-free correspondences, whenever the generated elimination meets no zero divisor, the first entry of the true rotation is an eigenvalue of the action matrix, with the monomials of the rotation as eigenvector; if that eigenvalue is simple and the eigensolver finds it, the true rotation is returned. In general at most twenty matrices are returned, and each of them is orthonormal up to 1/1000 in every entry of M M^T, has its second and third row of length one, determinant within 1/10 of one, all triples of normals coplanar up to 1/1000, and all points on the same side of the translation direction in both views for each of the ten translations.',
  'all bearing vectors, all index lists, all rotations and translations, every eigensolver', 'the elimination is generated code of 3071 statement groups on a 66x197 matrix; tests exercise a few random problems and cannot see a wrong coefficient in a rarely used cell',
  ['src/relative_pose/methods.cpp: fivept_kneip','src/relative_pose/modules/main.cpp: fivept_kneip_main','src/relative_pose/modules/fivept_kneip/init.cpp','src/relative_pose/modules/fivept_kneip/code.cpp: computeBasis','src/relative_pose/modules/fivept_kneip/spolynomials.cpp','src/relative_pose/modules/fivept_kneip/reductors.cpp'])

p('C79','Rotation-only hypotheses near the prior (EigensolverSacProblem)',
 "EigensolverSacProblem::computeModelCoefficients runs the unweighted eigensolver on the sample, started at a rotation whose Cayley parameters differ from those of the adapter's rotation prior by at most 0.1 in each coordinate, whatever rand() returns, and it returns a proper rotation. If the prior is a rotation by 180 degrees there is no finite start value. optimizeModelCoefficients calls rand() but does not depend on it: it is the weighted eigensolver on the inliers, started at the rotation of the model. On noise-free data, when the optimisation finds the true rotation, hypothesis and refinement are the true pose up to a positive scale, and every exact correspondence scores zero.",
 'all adapters, priors, samples, weights and sequences of random numbers',
 'a test sees the random numbers of one run and one prior; that the start value stays in the stated box for all of them, and that refinement ignores them, is about every sequence',
 ['src/sac_problems/relative_pose/EigensolverSacProblem.cpp: computeModelCoefficients, optimizeModelCoefficients, getSelectedDistancesToModel','src/relative_pose/methods.cpp: eigensolver','src/math/cayley.cpp: rot2cayley, cayley2rot'])
p('C80','gp3p: the generated elimination keeps the true poses',
 'Take any three rays (generalized camera) and three points for which the generated elimination of the generalized three-point solver does not divide by zero. Every pose that sees the three points along the rays, at whatever signed distances, stays a common zero of all polynomials the elimination builds, although the generated code leaves out terms of the polynomials it adds; early on it obtains three independent quadrics in the three rotation parameters alone. In the end the true poses give eigenvectors of the matrix it decomposes.',
 'every choice of three directions, three ray origins and three points without a zero divisor; every pose and every triple of signed distances',
 'The generated code drops terms that cancel identically; a dropped term that is only zero for the inputs of a test would go unnoticed, and the identities range over 27 real inputs.',
 ['src/absolute_pose/modules/gp3p/code.cpp:compute','src/absolute_pose/modules/gp3p/spolynomials.cpp','src/absolute_pose/modules/gp3p/reductors.cpp','src/absolute_pose/methods.cpp:gp3p'])

p('C81','Python bindings: arrays in, arrays out',
 'Row i of an n x 3 array argument is the i-th vector, R[i, j] the entry in row i and column j; returned translations, rotations and 3 x 4 transformations [R | t] have the same layout, so a returned transformation split into T[:, :3] and T[:, 3] is read back unchanged as prior. Hence for noise-free arguments absolute_pose_p2p returns the camera position, relative_pose_twopt the translation direction, the rotation-only functions the rotation, and the triangulations an array whose row i is the i-th point, rows of the second array beyond the first being ignored; the p3p functions return one array per solution in order. Whatever the shapes of the arguments, the functions return or raise: no read leaves a buffer, and a second array that is too short raises. Two exceptions: an argument with an empty third dimension is read out of bounds, and triangulating no correspondence is undefined.',
 'all arrays of any shape and content, all poses and points', 'layouts and bounds range over all shapes; a transposed or shifted read is invisible on symmetric test data, and an out-of-bounds read usually goes unnoticed',
 ['python/pyopengv.cpp: bearingVectorFromArray, pointFromArray, arrayFromPoints, arrayFromTranslation, arrayFromRotation, arrayFromTransformation, CentralAbsoluteAdapter, CentralRelativeAdapter, p2p, p3p_kneip, p3p_gao, twopt, twopt_rotationOnly, rotationOnly, triangulate, triangulate2','python/types.hpp'])
p('C82','Python bindings: sample-consensus functions',
 'absolute_pose_ransac, relative_pose_ransac and relative_pose_ransac_rotation_only return the transformation of the hypothesis with the most inliers, the earliest among equals, computed from a sample of rows of the first array; the lmeds functions that of the hypothesis with the least median of squared scores. With the default number of iterations, and any up to INT_MAX/10, the search is free of overflow. Expected but false: a failed search is reported (with fewer rows than the sample size, and whenever no hypothesis was evaluated, the content of an uninitialised matrix is returned, by ransac and lmeds alike); an unknown algorithm name is rejected (it silently means KNEIP or NISTER); TWOPT is usable with a known orientation (there is no such argument and every hypothesis has the identity rotation).',
 'all arrays, algorithm names, thresholds, iteration counts, random sequences and solvers', 'ranges over all random sequences and all strings; returning uninitialised memory looks like a plausible result',
 ['python/pyopengv.cpp: absolute_pose::ransac, absolute_pose::lmeds, relative_pose::ransac, relative_pose::lmeds, ransac_rotationOnly, lmeds_rotationOnly','include/opengv/sac/implementation/Ransac.hpp: computeModel','src/sac_problems/absolute_pose/AbsolutePoseSacProblem.cpp: computeModelCoefficients, getSampleSize'])

p('C83','EPnP error measures',
  'The quaternion the EPnP class computes from a rotation matrix is a unit quaternion whose rotation is the inverse of the matrix, in every branch, and no matrix makes the conversion fail. The relative rotation error of two rotations depends on the angle between them only (d = 2 sin(angle/4)), is symmetric and zero exactly on equal rotations. The relative translation error is the distance over the true length, zero exactly on equal translations, and no number exactly when the true translation is zero.',
  'all matrices, all pairs of rotations, all pairs of translations', 'the rotations form a continuum and the four branches meet on surfaces', ['src/absolute_pose/modules/Epnp.cpp: Epnp::mat_to_quat, Epnp::relative_error'])
p('C84','Matlab entry point',
  'opengv(method, ...) accepts exactly the documented names. With arguments of the documented form it runs the library function of that name on the caller\'s data, prior and (1-based) indices, and returns its result in an array of the documented shape; inliers come back 1-based and, converted to double, select the same correspondences again. Any call not of that form produces no output. With a string, arrays of doubles and index values in the range of int the entry point has no undefined behaviour. Not so: index values outside 1..n are passed on, a first argument that is no string is interpreted from fresh memory, and returned inliers used as indices without conversion are misread.',
  'all method strings, array sizes, data, index lists, priors, numbers of outputs and library results', '38 methods times three call forms times all sizes and data', ['matlab/opengv.cpp: findCase, mexFunction, methods, methodsLengths, enum Method'])
p('C85','Python bindings: multi-point solvers',
  'For noise-free arrays relative_pose_eightpt returns the essential matrix of the motion up to scale when the correspondences determine it, and always a singular matrix; relative_pose_sevenpt and relative_pose_fivept_nister return lists containing it, every matrix from seven rows satisfying all epipolar constraints; absolute_pose_epnp returns the camera pose, and in any case a 3 x 4 array that is all NaN or starts with a rotation. Too few rows trip the assertion of the solver, a second array shorter than the first raises. Expected but false: absolute_pose_gpnp and relative_pose_sixpt solve their problem (the bindings only build central adapters, so gpnp returns the same pose for the same points whatever the bearing vectors, and the first matrix sixpt inverts is singular for all unit bearing vectors, its result not depending on the arguments), and epnp handles points in a plane (all NaN).',
  'all arrays, motions, point sets and correct decompositions', 'ranges over all arrays and motions; a function that ignores its argument still returns a plausible pose',
  ['python/pyopengv.cpp: epnp, gpnp, fivept_nister, sevenpt, eightpt, sixpt, CentralAbsoluteAdapter, CentralRelativeAdapter, listFromEssentials, listFromRotations','src/relative_pose/methods.cpp: fivept_nister, sevenpt, eightpt, sixpt','src/absolute_pose/methods.cpp: epnp, gpnp'])
p('C86','Python bindings: refinements and the five-point rotation solver',
  'absolute_pose_optimize_nonlinear(v, p, t, R) and relative_pose_optimize_nonlinear(b1, b2, t, R) start at the pose passed, in that order of arguments, and minimise the reprojection errors of all rows of the first array; from six rows on the result is what the minimiser makes of these errors, with a descent method the total error never increases and a pose that explains every row is refined to one that does. With fewer than six rows the pose passed comes back unchanged and no row is looked at. The result is a 3 x 4 array with a rotation, or all NaN. A start whose rotation is a half turn gives all NaN, even if it is exact (refuted: a refinement never destroys a good start). R and t exchanged, or a second array with fewer rows (from six rows on), raise an exception. relative_pose_fivept_kneip uses exactly the first five rows; for noise-free rows its list contains the rotation between the views, and every matrix in it is a rotation that makes the epipolar planes meet, within the tolerances of the solver; there are at most twenty.',
  'all arrays of any shape and content, start poses, minimisers and correct eigensolvers', 'ranges over all arrays, start poses and behaviours of the minimiser; a refinement that does nothing, or starts elsewhere, still returns a plausible pose',
  ['python/pyopengv.cpp: absolute_pose::optimize_nonlinear, relative_pose::optimize_nonlinear, relative_pose::fivept_kneip, CentralAbsoluteAdapter, CentralRelativeAdapter, getNindices','src/absolute_pose/methods.cpp: optimize_nonlinear','src/relative_pose/methods.cpp: optimize_nonlinear, fivept_kneip'])
p('C87','Python bindings: eigensolver',
  'relative_pose_eigensolver(b1, b2, R) starts the minimisation at R, on the sums over all rows of the first array and the corresponding rows of the second: for every rotation these give the matrix of the normals of the epipolar planes of the rows. The array returned is the rotation found. If the minimiser does not leave the zeros of the smallest eigenvalue, an R that explains all rows with some translation is refined to a rotation that does. Four rows or fewer violate the assertion; a second array with fewer rows raises an exception.',
  'all arrays, start rotations other than half turns, and minimisers', 'ranges over all arrays and start rotations; exchanged views give the inverse rotation, which is as plausible',
  ['python/pyopengv.cpp: relative_pose::eigensolver, CentralRelativeAdapter','src/relative_pose/methods.cpp: eigensolver','src/relative_pose/modules/main.cpp: eigensolver_main'])
p('C88','Python bindings: UPnP',
  'absolute_pose_upnp(v, p) returns the poses of the complete UPnP solver for the rows of v and the corresponding rows of p: at least one array and at most one per candidate, each with a rotation or NaN in its first three columns. For noise-free rows, if the candidates contain the quaternion of the camera, the list contains the camera pose [R | t] - provided no component of that quaternion is zero; otherwise, as for a camera that is not rotated, the array with the right rotation has NaN for the translation (refuted). Bearing vectors all along one line give NaN. Two rows or fewer violate the assertion; a points array with fewer rows raises an exception.',
  'all arrays, camera poses, point sets and candidate lists', 'ranges over all arrays and poses; test poses are random, so the axis-aligned ones are never met',
  ['python/pyopengv.cpp: absolute_pose::upnp, CentralAbsoluteAdapter, listFromTransformations','src/absolute_pose/methods.cpp: upnp'])
p('C89','Python bindings: GP3P',
"absolute_pose_gp3p(v, p) uses the first three rows of each array and nothing else: v[i] as a ray through the one camera centre, p[i] as the world point on it. Its list contains every pose that puts the three points on their rays, as a 3 x 4 array [R | t], if the eigendecomposition contains the corresponding solution vector with an accepted eigenvalue. It has one array per eigenvalue with imaginary part below 1e-4, at most eight; each array is all NaN or has a proper rotation in its first three columns. Every solution has a twin with another rotation that puts the points on the same rays at the opposite distances, and nothing removes it: a caller has to discard poses with the points behind the camera. Fewer than three rows in either array raise an exception.",
'all arrays, all eigendecompositions, all three-point configurations; the twin for points that are not collinear',
'The statement is about every configuration and every result of the eigensolver.',
['python/pyopengv.cpp:absolute_pose::gp3p','src/absolute_pose/methods.cpp:gp3p','src/absolute_pose/modules/main.cpp:gp3p_main'])
if __name__ == '__main__':
    out = os.path.join(os.path.dirname(os.path.abspath(__file__)), '..', 'properties.jsonl')
    with open(out, 'w') as f:
        for q in P: f.write(json.dumps(q) + '\n')
    print(len(P))
