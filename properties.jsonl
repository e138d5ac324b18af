{"id": "C01", "title": "Sample draws are without replacement and never damage the index pool", "statement": "Every sample handed out by a sample-consensus problem consists of entries of the index set taken at pairwise distinct positions, and after any number of draws the internal pool is still a permutation of the index set that was configured, so no correspondence is ever lost or duplicated.", "quantifier": "all index sets, all sample sizes not exceeding the set, all random number streams, all histories of previous draws", "why_tests_cant": "the pool is mutated by every draw, so the claim is about unbounded histories and arbitrary generator outputs", "anchors": ["include/opengv/sac/implementation/SampleConsensusProblem.hpp: drawIndexSample, setIndices, setUniformIndices"]}
{"id": "C02", "title": "getSamples has exactly three outcomes", "statement": "getSamples either reports that there are too few indices (empty sample and iteration counter set to INT_MAX), or returns a sample of exactly the requested size that passes the sample check, or, after exactly ten rejected draws, returns an empty sample with the counter unchanged.", "quantifier": "all index sets, sample sizes, sample checks and random streams", "why_tests_cant": "depends on user supplied virtual checks and arbitrary random streams", "anchors": ["include/opengv/sac/implementation/SampleConsensusProblem.hpp: getSamples"]}
{"id": "C03", "title": "RANSAC always terminates, within its budget", "statement": "Ransac::computeModel returns for every problem: it evaluates at most max_iterations+1 hypotheses and suffers at most 10*max_iterations rejected ones.", "quantifier": "all problems (arbitrary stateful solvers, scores incl. NaN), all thresholds, probabilities, libm log/pow results, all max_iterations up to INT_MAX/10", "why_tests_cant": "the loop bound k is recomputed from floating-point logarithms on every improvement; termination for every oracle cannot be sampled", "anchors": ["include/opengv/sac/implementation/Ransac.hpp: computeModel"]}
{"id": "C04", "title": "RANSAC returns the best hypothesis it evaluated", "statement": "When computeModel succeeds on a fresh object, the stored model is one of the hypotheses evaluated in that run, no evaluated hypothesis had more inliers, and it is the earliest one with that many; the stored sample is the one that generated it.", "quantifier": "all problems, all random streams, all run lengths", "why_tests_cant": "requires an invariant over every iteration of an unbounded loop with arbitrary solvers", "anchors": ["include/opengv/sac/implementation/Ransac.hpp: computeModel, model_, model_coefficients_"]}
{"id": "C05", "title": "Reported inliers are exactly the sub-threshold correspondences", "statement": "selectWithinDistance returns, in index order, exactly the indices whose score is strictly below the threshold (NaN scores are never inliers), countWithinDistance is its length, and the inlier set reported by a successful RANSAC run is that of the stored model.", "quantifier": "all score vectors (incl. NaN/inf), thresholds, index sets", "why_tests_cant": "universally quantified over IEEE values and index sets of any size", "anchors": ["include/opengv/sac/implementation/SampleConsensusProblem.hpp: selectWithinDistance, countWithinDistance", "include/opengv/sac/implementation/Ransac.hpp"]}
{"id": "C06", "title": "RANSAC success means a model was found", "statement": "On a fresh object, computeModel returns true iff at least one hypothesis was evaluated during the run; when it returns false the inlier set is empty.", "quantifier": "all problems and runs", "why_tests_cant": "needs the full loop invariant for arbitrary solvers", "anchors": ["include/opengv/sac/implementation/Ransac.hpp: computeModel"]}
{"id": "C07", "title": "What a reused RANSAC object reports", "statement": "A user expects that calling computeModel a second time on the same object reports success only if the second run evaluated a hypothesis. The code does not give this: the previous model is never reset, so there are histories in which the second call reports success with the model and sample of the first (shown by a witness). What holds is that a run on an object without a stored model reports success only with a hypothesis evaluated in that run.", "quantifier": "all histories of two or more calls", "why_tests_cant": "a history property", "anchors": ["include/opengv/sac/implementation/Ransac.hpp: computeModel (model_ never cleared)", "include/opengv/sac/implementation/Lmeds.hpp", "include/opengv/sac/implementation/MultiRansac.hpp"]}
{"id": "C08", "title": "max_iterations is exceeded by exactly one", "statement": "max_iterations is documented as the maximum number of iterations, but the code may evaluate one hypothesis more (the check is > after the increment; shown by a witness) and never more than that, except that with max_iterations = 0 nothing is evaluated at all.", "quantifier": "all problems and settings", "why_tests_cant": "boundary behaviour over all solver behaviours", "anchors": ["include/opengv/sac/implementation/Ransac.hpp: 65,130", "include/opengv/sac/SampleConsensus.hpp: max_iterations_"]}
{"id": "C09", "title": "The adaptive stopping rule gives the advertised confidence", "statement": "With inlier ratio w and sample size n, after k iterations the probability that all samples were contaminated, (1-w^n)^k, is at most 1-probability; k is positive and never increases when a better model is found.", "quantifier": "all ratios in [0,1], all sample sizes >= 1, all probabilities in (0,1), exact real arithmetic", "why_tests_cant": "continuous quantification over w and probability", "anchors": ["include/opengv/sac/implementation/Ransac.hpp: 99-113", "include/opengv/sac/implementation/MultiRansac.hpp: 112-122"]}
{"id": "C10", "title": "Runs are reproducible: outcome depends only on consumed random numbers", "statement": "Two runs whose random streams agree on the numbers consumed produce the same sample, pool and result, and the number of random numbers consumed is bounded by ten times the sample size per request.", "quantifier": "all pairs of random streams, all problems", "why_tests_cant": "relational (two-run) property over all streams", "anchors": ["include/opengv/sac/implementation/SampleConsensusProblem.hpp: rnd, drawIndexSample"]}
{"id": "C11", "title": "Integer arithmetic of the loop budget does not overflow in the usable range", "statement": "For 0 <= max_iterations <= INT_MAX/10 no signed overflow happens in computeModel; outside this range the skip budget computation overflows (undefined behaviour).", "quantifier": "all int values of max_iterations", "why_tests_cant": "exhaustive over 2^32 configurations and all runs", "anchors": ["include/opengv/sac/implementation/Ransac.hpp: max_skip", "include/opengv/sac/implementation/Lmeds.hpp: max_skip", "include/opengv/sac/implementation/MultiRansac.hpp: max_skip"]}
{"id": "C12", "title": "LMedS returns the hypothesis with the least median score", "statement": "Lmeds::computeModel terminates after at most max_iterations evaluated hypotheses; on a fresh object the stored model is an evaluated hypothesis whose median squared (clipped) score is minimal, the earliest such.", "quantifier": "all problems and random streams (scores are numbers)", "why_tests_cant": "unbounded loop and arbitrary score vectors", "anchors": ["include/opengv/sac/implementation/Lmeds.hpp: computeModel"]}
{"id": "C13", "title": "LMedS and RANSAC agree on what an inlier is", "statement": "The inliers reported by Lmeds are exactly the indices with score <= threshold; they equal the RANSAC inliers unless a score equals the threshold. On failure the inliers of an earlier run survive (violation of the RANSAC contract).", "quantifier": "all score vectors and thresholds", "why_tests_cant": "boundary values over IEEE numbers, and history", "anchors": ["include/opengv/sac/implementation/Lmeds.hpp: 168-193"]}
{"id": "C14", "title": "Multi-camera RANSAC: termination, best model, per-camera inliers", "statement": "MultiRansac::computeModel terminates in the same budget, returns the evaluated model with the largest total inlier count, and the inliers it reports for each camera are exactly the sub-threshold indices of that camera.", "quantifier": "all numbers of cameras, problems, random streams", "why_tests_cant": "unbounded loop, arbitrary shapes", "anchors": ["include/opengv/sac/implementation/MultiRansac.hpp", "include/opengv/sac/implementation/MultiSampleConsensusProblem.hpp"]}
{"id": "C15", "title": "Multi-camera RANSAC with one camera is RANSAC", "statement": "On a single-camera multi problem MultiRansac performs step by step the same run as Ransac on the flattened problem: same models, same inliers, same iteration count.", "quantifier": "all single-camera problems and random streams", "why_tests_cant": "a simulation between two unbounded loops", "anchors": ["include/opengv/sac/implementation/MultiRansac.hpp", "include/opengv/sac/implementation/Ransac.hpp"]}
{"id": "C16", "title": "Multi-camera index serialisation is a bijection", "statement": "For every multi adapter, converting (camera, correspondence) to a serial index and back is the identity in both directions, serial indices are exactly 0..N-1, and serial access returns the data of the corresponding camera-wise access.", "quantifier": "all numbers of cameras and correspondences per camera (including empty cameras)", "why_tests_cant": "all shapes", "anchors": ["src/absolute_pose/NoncentralAbsoluteMultiAdapter.cpp", "src/relative_pose/CentralRelativeMultiAdapter.cpp", "src/relative_pose/NoncentralRelativeMultiAdapter.cpp", "src/relative_pose/MANoncentralRelativeMulti.cpp"]}
{"id": "C17", "title": "Sample sizes are spread evenly over the cameras", "statement": "getSampleSizes of the multi-camera problems distributes the required number of samples so that they sum to the requirement and no two cameras differ by more than one, for every stream of rand() results below RAND_MAX. If rand() returns RAND_MAX, or there is no camera, the function writes out of bounds (shown by witnesses).", "quantifier": "all camera counts, all rand() results", "why_tests_cant": "the failing rand() value has probability 2^-31", "anchors": ["src/sac_problems/absolute_pose/MultiNoncentralAbsolutePoseSacProblem.cpp: getSampleSizes", "src/sac_problems/relative_pose/MultiNoncentralRelativePoseSacProblem.cpp: getSampleSizes"]}
{"id": "C18", "title": "Round-robin serialisation visits every sampled correspondence once", "statement": "The serial index list built for the six-point solver terminates and is a permutation of all sampled multi-indices, visiting cameras in round-robin order.", "quantifier": "all shapes of samples and valid start cameras", "why_tests_cant": "nested while loops over arbitrary shapes", "anchors": ["src/sac_problems/relative_pose/MultiNoncentralRelativePoseSacProblem.cpp: 70-115"]}
{"id": "C19", "title": "Multi-camera relative scores are right for selections 0,1,2,... and wrong for others", "statement": "A user expects the score reported for the i-th selected index of a camera to be the reprojection error of that very correspondence. For the multi-camera relative problems this holds, for every camera and every pose, when each selection is 0,1,2,...; for other selections it does not hold, because the bearing vectors are fetched by loop position: a noise-free inlier can get an arbitrary score (shown by a witness).", "quantifier": "all selections", "why_tests_cant": "only wrong for non-uniform selections; all selections quantified", "anchors": ["src/sac_problems/relative_pose/MultiNoncentralRelativePoseSacProblem.cpp: 318-321", "src/sac_problems/relative_pose/MultiCentralRelativePoseSacProblem.cpp: 154-155"]}
{"id": "C20", "title": "Minimal solver disambiguation picks the candidate with smallest error", "statement": "When a solver yields several candidate poses, computeModelCoefficients returns the (first) candidate with the least error on the disambiguation point(s); with no candidates it reports failure, with exactly one it returns it.", "quantifier": "all candidate lists and scores", "why_tests_cant": "arbitrary candidate lists", "anchors": ["src/sac_problems/absolute_pose/AbsolutePoseSacProblem.cpp: computeModelCoefficients", "src/sac_problems/absolute_pose/MultiNoncentralAbsolutePoseSacProblem.cpp", "src/sac_problems/relative_pose/CentralRelativePoseSacProblem.cpp"]}
{"id": "C21", "title": "Absolute pose score: range and zero", "statement": "For unit bearing vectors the score of a correspondence is in [0,2]; it is 0 iff the bearing vector points exactly at the reprojected point, 2 iff exactly away; in particular noise-free correspondences score 0 under the true pose for every camera mount.", "quantifier": "all poses, camera mounts, points and unit bearing vectors", "why_tests_cant": "continuous quantification", "anchors": ["src/sac_problems/absolute_pose/AbsolutePoseSacProblem.cpp: getSelectedDistancesToModel"]}
{"id": "C22", "title": "Multi-central hypotheses are never filled in", "statement": "Scoring by MultiCentralRelativePoseSacProblem needs one transformation per camera pair, and is in range and correct on initial selections when it gets them. Its own computeModelCoefficients does not provide them: for every input it reports success and leaves the output model untouched, so that scoring the freshly hypothesised (empty) model reads out of bounds.", "quantifier": "all inputs", "why_tests_cant": "universal", "anchors": ["src/sac_problems/relative_pose/MultiCentralRelativePoseSacProblem.cpp: 104-113,128"]}
{"id": "C23", "title": "Index lists and adapters address the right data", "statement": "Running a method on all correspondences equals running it with the explicit list 0..n-1; array-backed adapters return for correspondence i exactly the i-th packed record.", "quantifier": "all adapters, index lists", "why_tests_cant": "all sizes", "anchors": ["include/opengv/Indices.hpp", "src/absolute_pose/MACentralAbsolute.cpp", "src/absolute_pose/MANoncentralAbsolute.cpp", "src/relative_pose/MANoncentralRelative.cpp", "src/point_cloud/MAPointCloud.cpp"]}
{"id": "C24", "title": "Every Cayley vector maps to a rotation", "statement": "cayley2rot returns an orthogonal matrix with determinant +1 for every parameter vector; cayley2rot_reduced is the same matrix scaled by 1+|c|^2.", "quantifier": "all vectors in R^3", "why_tests_cant": "continuous quantification", "anchors": ["src/math/cayley.cpp: cayley2rot, cayley2rot_reduced"]}
{"id": "C25", "title": "Cayley conversions are mutually inverse", "statement": "rot2cayley(cayley2rot(c)) = c for all c, and cayley2rot(rot2cayley(R)) = R for every rotation R that is not a half-turn; for half-turns the conversion is singular.", "quantifier": "all vectors, all rotations", "why_tests_cant": "continuous quantification, singular set of measure zero", "anchors": ["src/math/cayley.cpp: rot2cayley"]}
{"id": "C26", "title": "Quaternion to rotation", "statement": "quaternion2rot of a unit quaternion is a rotation, it rotates vectors as quaternion conjugation does, q and -q give the same rotation, and a non-unit quaternion is not normalised: the result is then no rotation.", "quantifier": "all quaternions", "why_tests_cant": "continuous quantification", "anchors": ["src/math/quaternion.cpp: quaternion2rot"]}
{"id": "C27", "title": "Rotation to quaternion round trip", "statement": "quaternion2rot(rot2quaternion(R)) = R exactly for the rotations whose quaternion has no vanishing component; for every other rotation, including the identity, the conversion yields NaN (0/0 in the sign computation).", "quantifier": "all rotations", "why_tests_cant": "violations are on a measure-zero set", "anchors": ["src/math/quaternion.cpp: rot2quaternion"]}
{"id": "C28", "title": "Arun alignment yields a proper rotation", "statement": "For every singular value decomposition the linear algebra library may return, arun() returns an orthogonal matrix with determinant +1.", "quantifier": "all cross-covariance matrices and all valid SVDs of them", "why_tests_cant": "the SVD is not unique; all of them are quantified", "anchors": ["src/math/arun.cpp: arun"]}
{"id": "C29", "title": "Arun alignment is optimal", "statement": "The rotation returned by arun() maximises trace(R*H) over all rotations, i.e. minimises the sum of squared alignment errors.", "quantifier": "all matrices H, all valid SVDs, all competing rotations", "why_tests_cant": "optimality over a continuum", "anchors": ["src/math/arun.cpp: arun"]}
{"id": "C30", "title": "Point cloud alignment recovers an exact rigid motion", "statement": "If points1 = R*points2 + t for a rotation R, threept_arun / arun_complete returns a transformation that maps points2 exactly to points1, whatever the number of points >= 1; when the cloud is not collinear the transformation is (R,t).", "quantifier": "all point clouds of any size, all rigid motions, all valid SVDs", "why_tests_cant": "continuous quantification and any size", "anchors": ["src/point_cloud/methods.cpp: threept_arun", "src/math/arun.cpp: arun_complete"]}
{"id": "C31", "title": "Gauss-Jordan elimination preserves the solution set", "statement": "For a matrix with at least as many columns as rows gauss_jordan reports a zero pivot exactly if the leading square block is singular; otherwise a vector is annihilated by the output rows if and only if it is annihilated by the input rows, and from row exitCondition on the leading block of the output is the identity. This needs every compared value to be zero or above the precision 1e-10; with smaller nonzero entries the solution set changes. Fewer columns than rows, ragged rows, no rows and a negative exitCondition are out-of-range accesses.", "quantifier": "all matrices of any size, all precisions below 1, all exit conditions", "why_tests_cant": "any size, all values", "anchors": ["src/math/gauss_jordan.cpp: gauss_jordan"]}
{"id": "C32", "title": "Sturm sign changes count real roots", "statement": "For a polynomial with a regular Sturm chain, the difference of evaluateChain at a and b is the number of distinct real roots strictly between them; a root at a is counted when the polynomial increases there, a root at b when it decreases there. (A square-free polynomial whose chain has a vanishing leading coefficient, such as x^4-1, divides by zero instead.)", "quantifier": "all polynomials with regular chain, all intervals", "why_tests_cant": "Sturm theorem, continuous quantification", "anchors": ["src/math/Sturm.cpp: Sturm, evaluateChain, evaluateChain2, computeNegatedRemainder"]}
{"id": "C33", "title": "Root bracketing is complete", "statement": "bracketRoots terminates and returns exactly one value per distinct real root, each closer than eps/2 to its root (or bound/(20 n) for the default tolerance), provided no root lies exactly on the bound; findRoots returns as many values as there are roots. (Roots exactly on the bound can be lost: x^2-1 is reported rootless.)", "quantifier": "all polynomials of degree >= 2 with regular chain, all eps > 0", "why_tests_cant": "unbounded subdivision", "anchors": ["src/math/Sturm.cpp: bracketRoots, Bracket"]}
{"id": "C34", "title": "The root bound is valid", "statement": "For degree >= 2 all real roots lie within plus or minus computeLagrangianBound(). (For degree 1 the value is one too small: 2x-1 has root 1/2 and bound -1/2.)", "quantifier": "all polynomials of degree >= 2 with nonzero leading coefficient", "why_tests_cant": "continuous quantification", "anchors": ["src/math/Sturm.cpp: computeLagrangianBound"]}
{"id": "C35", "title": "Root search with built-in polishing", "statement": "If findRoots2 returns, its values stand one for one for the distinct real roots, each in an interval with no other root and either closer than eps_x/2 or with residual below eps_val; it returns whenever its inner Newton loops do. (Termination for every polynomial is violated: on x^5+5x^4+6x^3-2x^2+4x+8, which has one simple real root, the Newton loop alternates between 0 and -2 for ever.)", "quantifier": "all polynomials of degree >= 2 with regular chain, all tolerances", "why_tests_cant": "non-termination cannot be observed by tests", "anchors": ["src/math/Sturm.cpp: findRoots2"]}
{"id": "C36", "title": "The closed-form cubic and quartic solvers return the roots", "statement": "o3_roots returns three numbers, the real parts of the three complex roots: every real root is among them, the first is always a root and all three are if the discriminant is positive. o4_roots returns the real parts of the four complex roots, so every real root is among them. (Violated in degenerate cases: for x^3-1 and x^4-1 the code divides by zero.)", "quantifier": "all coefficients outside the degenerate cases named", "why_tests_cant": "continuous quantification", "anchors": ["src/math/roots.cpp: o3_roots, o4_roots"]}
{"id": "C37", "title": "Mid-point triangulation", "statement": "triangulate2 returns the true point for noise-free non-parallel rays, and in general the mid-point of the shortest segment between the two rays.", "quantifier": "all relative poses and non-parallel bearing vectors", "why_tests_cant": "continuous quantification", "anchors": ["src/triangulation/methods.cpp: triangulate2"]}
{"id": "C38", "title": "Linear triangulation", "statement": "triangulate returns the true point for noise-free non-parallel rays for every SVD that may be returned, provided neither bearing vector is orthogonal to the optical axis. (Otherwise violated: with f1 = (1,0,0) the linear system is rank deficient and a valid SVD gives an infinite result.)", "quantifier": "all relative poses, points and valid SVDs", "why_tests_cant": "continuous quantification", "anchors": ["src/triangulation/methods.cpp: triangulate"]}
{"id": "C39", "title": "Two-point translation with known rotation", "statement": "twopt returns a translation direction satisfying both epipolar constraints; with unrotate set the sign is such that the optical flow condition holds, and for noise-free data it is the true direction.", "quantifier": "all rotations, translations and point pairs in general position", "why_tests_cant": "continuous quantification", "anchors": ["src/relative_pose/methods.cpp: twopt"]}
{"id": "C40", "title": "Rotation-only estimation", "statement": "twopt_rotationOnly and rotationOnly return a rotation, and recover the exact rotation from noise-free bearing vectors.", "quantifier": "all rotations and bearing vectors, any number of correspondences", "why_tests_cant": "continuous quantification, any size", "anchors": ["src/relative_pose/methods.cpp: twopt_rotationOnly, rotationOnly"]}
{"id": "C41", "title": "Two-point absolute position with known rotation", "statement": "p2p recovers the camera position exactly from two noise-free correspondences in general position, for every camera rotation, unless the difference of the world points is a multiple of (1,1,0) or (1,-1,0), where it returns the origin (division by zero); it never returns NaN.", "quantifier": "all poses and points", "why_tests_cant": "continuous quantification", "anchors": ["src/absolute_pose/methods.cpp: p2p"]}
{"id": "C42", "title": "Kneip P3P recovers the pose from three rays", "statement": "For unit bearings p3p_kneip returns nothing for collinear world points and four transformations otherwise. Every finite one is a rigid motion that puts the first two points on their rays, one of them in front. The i-th belongs to the i-th root of a quartic in the cosine of the angle between the plane of the first two rays and the plane of the points, and the cosines of all fitting poses are roots of it: if the root is real, the third point lies in front of the camera on its ray or opposite to the ray mirrored at the plane of the first two bearings (so a real root can give a wrong pose: shown). For three points in front of a camera the true pose is among the four results unless they are all NaN - provided the bearings are not coplanar, one specific angle of their spherical triangle is not right, and the third point is off the right cylinder over the circle through the camera and the first two points. With that right angle (for instance for mutually orthogonal bearings) all results are NaN.", "quantifier": "all triples of points and unit bearing vectors, all camera poses", "why_tests_cant": "continuous quantification", "anchors": ["src/absolute_pose/methods.cpp: p3p_kneip", "src/absolute_pose/modules/main.cpp: p3p_kneip_main", "src/math/roots.cpp: o4_roots"]}
{"id": "C43", "title": "Gao P3P recovers the pose from three rays", "statement": "For unit bearings and non-collinear points p3p_gao returns nothing, four transformations of NaNs, or four entries belonging to the roots of the quartic whose real roots are the ratios of the first to the third distance allowed by the cosine laws; the entry of a real root is NaN or a rigid motion that sees the three points along their bearings, the third in front of the camera. Every pose that sees the points, the third in front, is returned (unless all results are NaN) outside three singular cases. In those valid poses are lost: for bearings satisfying a coplanarity test that compares with the wrong constant and for one relation between an angle of the triangle and of the bearings nothing is returned, and in symmetric configurations such as a regular triangle seen from its axis, or orthogonal bearings, every result is NaN. Poses with the first two points behind the camera are returned too (shown).", "quantifier": "all triples of points and unit bearing vectors, all camera poses", "why_tests_cant": "continuous quantification", "anchors": ["src/absolute_pose/methods.cpp: p3p_gao", "src/absolute_pose/modules/main.cpp: p3p_gao_main"]}
{"id": "C44", "title": "The eigensolver matrix is the sum of normal-vector outer products", "statement": "For any number of correspondences, any weights and any Cayley vector, the matrix of eigensolver equals (1+|c|^2)^2 times the sum of w*n*n^T with n = f1 x R f2; it is symmetric positive semidefinite, and for positive weights its kernel is the set of translations satisfying all epipolar constraints. For any outcome of the optimisation eigensolver returns a proper rotation, eigenvalues in decreasing order and a translation along the last eigenvector oriented by the optical flow; if the optimisation finds the true rotation of noise-free data, the returned translation is a positive multiple of the true one.", "quantifier": "all correspondence sets of any size, weights, rotations; all eigenvector bases", "why_tests_cant": "any size, continuous", "anchors": ["src/relative_pose/modules/eigensolver/modules.cpp: composeM", "src/relative_pose/methods.cpp: eigensolver", "src/relative_pose/modules/main.cpp: eigensolver_main"]}
{"id": "C45", "title": "Closed-form smallest eigenvalue", "statement": "getSmallestEV returns an eigenvalue of M that is a lower bound for every Rayleigh quotient of M, whenever M is not a multiple of the identity. (For multiples of the identity, e.g. the zero matrix of noise-free pure rotation, it divides zero by zero.)", "quantifier": "all symmetric matrices", "why_tests_cant": "continuous quantification", "anchors": ["src/relative_pose/modules/eigensolver/modules.cpp: getSmallestEV"]}
{"id": "C46", "title": "The analytic Jacobian of the eigensolver is the derivative", "statement": "The Jacobian matrices returned by composeMwithJacobians are the exact partial derivatives of composeM with respect to the three Cayley parameters, and wherever the eigenvalues are distinct the Jacobian returned by getSmallestEVwithJacobian is the gradient of the smallest eigenvalue.", "quantifier": "all inputs and parameters", "why_tests_cant": "finite differences only test points", "anchors": ["src/relative_pose/modules/eigensolver/modules.cpp: composeMwithJacobians, getSmallestEVwithJacobian"]}
{"id": "C47", "title": "The generalized eigensolver", "statement": "For every rotation and every set of correspondences of a multi-camera rig, the 4x4 matrix used by ge is symmetric, positive semidefinite and, up to a positive factor, the weighted sum of squared generalized epipolar constraints; the matrices returned with it are its partial derivatives. Whatever the descent finds, ge returns a rotation, eigenvalues in decreasing order and the homogeneous translation minimising that sum for its rotation. On noise-free data that determine the translation, the true rotation gives the true metric translation.", "quantifier": "all correspondences, weights, camera mounts and rotations", "why_tests_cant": "continuous; any number of correspondences", "anchors": ["src/relative_pose/methods.cpp: ge", "src/relative_pose/modules/ge/modules.cpp: composeG, composeGwithJacobians", "src/relative_pose/modules/main.cpp: ge_main2"]}
{"id": "C48", "title": "Essential matrix decomposition", "statement": "The four candidate poses derived from an essential matrix are proper rotations and translations of the right scale; for a true essential matrix [t]xR the true pose (up to translation sign and scale) is among them.", "quantifier": "all essential matrices, all valid SVDs", "why_tests_cant": "SVD non-uniqueness, continuous", "anchors": ["src/sac_problems/relative_pose/CentralRelativePoseSacProblem.cpp: computeModelCoefficients"]}
{"id": "C49", "title": "Seven- and eight-point solvers", "statement": "eightpt returns a matrix of rank at most two, namely the singular matrix closest to a unit matrix of least algebraic error, and a nonzero multiple of the essential matrix for noise-free data that determine it. For seven correspondences every matrix returned by sevenpt satisfies all seven epipolar constraints and has zero determinant; for independent constraints every singular solution is returned up to scale if neither null-space matrix is singular. (Otherwise violated: if the last null-space vector happens to be a singular matrix, it is the only result and the true essential matrix is lost.)", "quantifier": "all correspondences, all valid decompositions", "why_tests_cant": "continuous quantification, any number of correspondences", "anchors": ["src/relative_pose/methods.cpp: sevenpt, eightpt"]}
{"id": "C50", "title": "Five-point solver of Stewenius", "statement": "The 10x20 coefficient matrix of the solver vanishes at (x,y,z) exactly if E = xX+yY+zZ+W is singular and satisfies the nine trace constraints. Every solution is an eigenvector of the action matrix. From five independent correspondences the true essential matrix is among the ten results, up to sign and scale, whenever the block to invert is regular, its eigenvalue is simple and it is not orthogonal to the last null space vector (in which case it is never returned). All results satisfy the epipolar constraints of the five correspondences and are normalised.", "quantifier": "all null space bases, all x,y,z, all correspondences and motions, all valid decompositions", "why_tests_cant": "36-variate polynomial identities; continuous", "anchors": ["src/relative_pose/methods.cpp: fivept_stewenius", "src/relative_pose/modules/main.cpp: fivept_stewenius_main", "src/relative_pose/modules/fivept_stewenius/modules.cpp: composeA"]}
{"id": "C51", "title": "Five-point solver of Nister", "statement": "The 10x20 coefficient matrix of the solver vanishes at (x,y,z) exactly if E = xX+yY+zZ+W is singular and satisfies the nine trace constraints. The tenth-order polynomial is the determinant of the 3x3 polynomial matrix; every solution is a root of it, and at every root with nonzero denominator the quotients x and y annihilate that matrix. From five independent correspondences the true essential matrix is returned up to sign and scale whenever the block to invert is regular, the root finder reports its root and the denominator does not vanish there. All results satisfy the epipolar constraints and have unit norm. (If two solutions share z, the division is by zero and both are lost.)", "quantifier": "all null space bases, all x,y,z, all correspondences and motions, any root finder and refinement", "why_tests_cant": "continuous", "anchors": ["src/relative_pose/methods.cpp: fivept_nister", "src/relative_pose/modules/fivept_nister/modules.cpp: composeA, polyVal, compute*OrderPolynomial*, pollishCoefficients", "src/relative_pose/modules/main.cpp: fivept_nister_main"]}
{"id": "C52", "title": "Camera-to-body conversions", "statement": "Poses computed in the camera frame are converted so that the body pose composed with the camera mount gives back the camera pose, for absolute and relative problems; the direct camera-to-camera motion used for scoring is the conjugation of the body motion with the mounts.", "quantifier": "all poses and mounts", "why_tests_cant": "continuous", "anchors": ["src/sac_problems/absolute_pose/AbsolutePoseSacProblem.cpp: 51-73", "src/sac_problems/relative_pose/NoncentralRelativePoseSacProblem.cpp: 202-211,237-241"]}
{"id": "C53", "title": "Relative pose score: range, zero, and insensitivity to adapter state", "statement": "The relative pose score of a correspondence is in [0,4] for unit bearing vectors, is 0 for noise-free correspondences with positive depth under the true pose, and does not depend on the pose stored in the adapter before the call.", "quantifier": "all poses, bearing vectors, adapter states", "why_tests_cant": "continuous; history", "anchors": ["src/sac_problems/relative_pose/CentralRelativePoseSacProblem.cpp: getSelectedDistancesToModel"]}
{"id": "C54", "title": "Effect of scoring on the pose stored in the adapter", "statement": "Scoring by the eigensolver problem leaves the pose prior stored in the user adapter unchanged. Scoring by the central, non-central and translation-only problems does not: afterwards the adapter holds the motion last scored. For the translation-only problem, which reads its rotation back from the adapter, this never changes later hypotheses as long as the scored models are its own.", "quantifier": "all adapters, models, index lists", "why_tests_cant": "a property of call histories", "anchors": ["src/sac_problems/relative_pose/*: getSelectedDistancesToModel"]}
{"id": "C55", "title": "UPnP minimises the object-space error and recovers the pose", "statement": "For unit bearings upnp is defined exactly when two bearings are not parallel. Its polynomial cost at a quaternion is the sum of squared distances from the transformed points to their rays at the best translation; the translation it returns is that unique best one. The candidates are unit quaternions ordered by increasing cost, one per eigenvector (none closer than 1e-5 when the non-symmetric solver is used). The polishing step is one Newton step with the exact gradient and Hessian of the cost on the rotation group; every returned matrix is a rotation. If the points are in front of their cameras in the true pose and its quaternion is a candidate, the true pose is among the results - except when a component of its quaternion is zero (e.g. the identity), where the returned translation is NaN. Two candidates can still be the same rotation (q and -q with zero scalar part).", "quantifier": "all correspondences, any number of points and cameras, all eigenvector lists", "why_tests_cant": "continuous and any list", "anchors": ["src/absolute_pose/methods.cpp: upnp, fill3x10, f, Jac", "src/absolute_pose/modules/main.cpp: upnp_fill_s, upnp_main, upnp_main_sym"]}
{"id": "C56", "title": "GPnP recovers the pose from noise-free data of full rank", "statement": "The control-point weights of gpnp sum to one and reproduce every world point, for any number of points and any rig; the first control point is the centroid. The control points of the true pose satisfy its linear system. With at least six points, all twelve singular values above the cut-off and no control point at the body origin, gpnp returns exactly the true pose, whatever its later stages do. If instead the last singular values are zero, coefficients of the null space vectors exist that give the true control points, their distances and the pose. The pose returned is that of the candidate with the smallest error, whenever the error of the first candidate is a number.", "quantifier": "all correspondences, rigs, poses; any number of points; any refinement", "why_tests_cant": "continuous, any size", "anchors": ["src/absolute_pose/methods.cpp: gpnp", "src/absolute_pose/modules/main.cpp: gpnp_main, gpnp_evaluate"]}
{"id": "C57", "title": "GP3P accepts eigenvalues with negative imaginary part", "statement": "gp3p is meant to use only eigenvalues that are (numerically) real. It sets up exactly the equations \"some pose sees the three points\", an eigenvector proportional to the monomials of the true solution gives exactly the true pose, and every output has a proper rotation. It accepts every real eigenvalue and rejects those with imaginary part >= 1e-4, but the check misses the absolute value: from every complex-conjugate pair it accepts the member with negative imaginary part, so complex pairs produce spurious poses.", "quantifier": "all bearing vectors, offsets, points, poses that are no half turn; all eigenvalues and eigenvectors", "why_tests_cant": "continuous", "anchors": ["src/absolute_pose/modules/main.cpp: gp3p_main 409"]}
{"id": "C58", "title": "Sampling is unbiased", "statement": "For a pool of n distinct indices, every ordered sample of k distinct indices is produced by exactly one sequence of random choices (the i-th out of n-i possibilities), so under uniformly distributed random numbers all ordered samples are equally likely up to modulo bias.", "quantifier": "all pools up to 2^64, all samples, all random streams", "why_tests_cant": "bijection between choice sequences and samples; all pool sizes", "anchors": ["include/opengv/sac/implementation/SampleConsensusProblem.hpp: drawIndexSample"]}
{"id": "C59", "title": "Closed-form cost of the generalized eigensolver", "statement": "The cost minimised by ge is the smallest eigenvalue of its 4x4 matrix (and, for the test of wrong minima, the second smallest): it is nonnegative and zero exactly where some homogeneous translation satisfies every generalized epipolar constraint. When three eigenvalues coincide, e.g. for a pure rotation of a central camera, the cost of the true rotation is NaN.", "quantifier": "all symmetric 4x4 matrices; all correspondences and rotations", "why_tests_cant": "continuous", "anchors": ["src/relative_pose/modules/ge/modules.cpp: getEV, getCost"]}
{"id": "C60", "title": "Search of the generalized eigensolver ends and never worsens", "statement": "ge terminates for every input: its doubling, halving, iteration and trial loops end for any objective function, any random numbers and any starting rotation, after at most five trials. The rotation returned is where the last trial ended, and along a trial the objective never rises (it ends not above its value at the start of the trial, or NaN). Where the three forward differences vanish in double arithmetic the returned rotation is NaN.", "quantifier": "all objective functions, random draws, starting vectors, all binary64 rounding", "why_tests_cant": "loops whose bound depends on floating point halving; every objective and random sequence", "anchors": ["src/relative_pose/modules/main.cpp: ge_main2", "src/relative_pose/modules/ge/modules.cpp: getQuickJacobian"]}
{"id": "C61", "title": "Generated elimination templates of GPnP return the solution", "statement": "gpnp looks for the coefficients of 1 to 5 null space vectors that give the control points their known mutual distances, with five generated elimination programs. Whenever such a program runs without a division by zero and the wanted coefficients exist, what it returns are exactly those coefficients, for any intercept, any null space vectors and any control points (in particular the solution is then unique). The program for five vectors returns the first four correctly but its last coefficient is wrong in general, because one product in its back substitution uses the wrong factor.", "quantifier": "all intercepts, null space vectors and control points", "why_tests_cant": "straight-line programs of up to 700 steps over continuous inputs", "anchors": ["src/absolute_pose/modules/gpnp1..gpnp5: init, compute, sPolynomial*, groebnerRow*", "src/absolute_pose/modules/main.cpp: gpnp_main 470-565"]}
{"id": "C62", "title": "GPnP null space stages are started with coincident control points", "statement": "The stages of gpnp for one to five null space vectors should start from coefficients that give the control points their true mutual distances. They receive the first control point four times instead: the starting coefficients do not depend on the other control points, and for one to four vectors there are data for which correct coefficients exist but others are returned.", "quantifier": "all intercepts, null space vectors, control points", "why_tests_cant": "continuous; the defect is masked by later refinement on typical data", "anchors": ["src/absolute_pose/modules/main.cpp: gpnp_main 452-455"]}
{"id": "C63", "title": "GPnP ignores the bearing vectors of a central camera", "statement": "For a central camera (all camera offsets zero) gpnp should return the pose like any other absolute pose solver. It returns a pose that depends on the world points only, for every list of bearing vectors and every singular value decomposition, so it is wrong for every camera position but one.", "quantifier": "all world points, bearing vectors, poses, any number of points", "why_tests_cant": "a NaN that silently wins a comparison; holds for every input", "anchors": ["src/absolute_pose/methods.cpp: gpnp", "src/absolute_pose/modules/main.cpp: gpnp_main 575-588, gpnp_evaluate"]}
{"id": "C64", "title": "Least squares inside EPnP is exact, but can give up on solvable systems", "statement": "The Householder solver that epnp uses in every Gauss-Newton step, for any number of rows and columns, either leaves its result untouched or stores the unique least squares solution. It never divides by zero, a matrix without full column rank is always detected, and the result does not depend on what earlier calls left in its static work arrays. It should succeed for every matrix of full column rank; it does when the last row is zero, but its search for the largest entry skips the last row, so there is a full-rank 6x4 system on which it gives up and returns the caller's uninitialised vector.", "quantifier": "all matrices of any size, right-hand sides, histories of the static arrays and initial contents of the result", "why_tests_cant": "exactness for all real inputs; the failing inputs have measure zero; depends on the history of calls", "anchors": ["src/absolute_pose/modules/Epnp.cpp: qr_solve 714-826"]}
{"id": "C65", "title": "EPnP is not safe to call from two threads", "statement": "epnp takes only const arguments, so two threads should be able to run it on different data. When the two calls of the inner least squares solver do not overlap in time, each returns what it returns alone, whatever order they run in. But their work arrays are static: there is an interleaving of two calls, both of which would return their least squares solution alone, after which the first returns something else.", "quantifier": "all data, all serial schedules; an explicit interleaving", "why_tests_cant": "depends on the schedule of two threads", "anchors": ["src/absolute_pose/modules/Epnp.cpp: qr_solve 722-738"]}
{"id": "C66", "title": "EPnP: weights and linear system are exact", "statement": "With control points that span space, the four weights of every point sum to one and reproduce the point. A vector solves the linear system exactly when the four points it holds put every world point onto the line of its bearing vector. The control points seen from the true camera solve it, and the 12x12 matrix the code decomposes has the same solutions.", "quantifier": "all control points in general position, all lists of correspondences of any length, all poses", "why_tests_cant": "Tests compare the final pose for a few random scenes, not the meaning of the system for all of them.", "anchors": ["src/absolute_pose/modules/Epnp.cpp: compute_barycentric_coordinates, fill_M, compute_pose", "src/absolute_pose/methods.cpp: epnp"]}
{"id": "C67", "title": "EPnP: the six equations are the distances between control points", "statement": "The residual of every equation that the coefficients have to meet is the squared distance of two control points in the world minus that of the points built from the coefficients, all six pairs occur, and the matrix of the refinement step is the exact derivative of the residuals.", "quantifier": "all null space bases, all coefficients, all control points", "why_tests_cant": "A wrong entry in one of 60 products only slows down or biases the refinement in some scenes.", "anchors": ["src/absolute_pose/modules/Epnp.cpp: compute_L_6x10, compute_rho, compute_A_and_b_gauss_newton, compute_ccs"]}
{"id": "C68", "title": "EPnP returns the true pose for exact data", "statement": "If all points are seen along their bearing vectors, the only affine maps that keep every point on its line are multiples of the true one, and the system for the first approximation has full rank, then EPnP returns exactly the true pose, whatever the number of points and whether the bearing vectors point forwards or backwards along the optical axis.", "quantifier": "all poses, all scenes of any size that meet these conditions, all singular value decompositions", "why_tests_cant": "Simulated tests check a tolerance for a few scenes.", "anchors": ["src/absolute_pose/modules/Epnp.cpp: compute_pose", "src/absolute_pose/methods.cpp: epnp", "include/opengv/absolute_pose/methods.hpp: epnp"]}
{"id": "C69", "title": "EPnP fails for every planar scene", "statement": "The control points span space exactly when the points are not in one plane. For points in one plane no pose comes out, even for scenes that determine the pose uniquely.", "quantifier": "all planar scenes, all poses, all decompositions", "why_tests_cant": "Random test points are never in one plane.", "anchors": ["src/absolute_pose/modules/Epnp.cpp: choose_control_points, compute_barycentric_coordinates"]}
{"id": "C70", "title": "EPnP: rotation, candidate choice and bearing vectors it cannot use", "statement": "A result always contains a rotation. The error used to compare candidates is zero exactly when every point is on the line of its bearing vector. If the first candidate has an error that is a number, no candidate is better than the result; if it is NaN the first candidate is returned. One bearing vector at a right angle to the optical axis makes EPnP return no pose.", "quantifier": "all inputs, all candidates", "why_tests_cant": "NaN candidates and exact right angles do not occur in random tests.", "anchors": ["src/absolute_pose/modules/Epnp.cpp: compute_pose, estimate_R_and_t, reprojection_error, add_correspondence"]}
{"id": "C71", "title": "EPnP: starting coefficients and refinement steps", "statement": "From an exact solution of the linearised equations the three approximations recover one, two or three null space coefficients up to a common sign, the first one also when the solution comes out negated. A refinement step moves the coefficients by the least squares solution of the linearised distance equations. The second approximation should treat a negated solution like the first does, but it returns coefficients with the wrong relative sign.", "quantifier": "all coefficients, all systems", "why_tests_cant": "Errors in the starting point are hidden by the refinement for typical data.", "anchors": ["src/absolute_pose/modules/Epnp.cpp: find_betas_approx_1, find_betas_approx_2, find_betas_approx_3, gauss_newton"]}
{"id": "C72", "title": "Nonlinear refinement of an absolute pose", "statement": "Whatever the Levenberg-Marquardt minimiser does, absolute_pose::optimize_nonlinear starts exactly at the pose stored in the adapter and returns a rotation and a translation. What it minimises is the sum of squares of the scores of the RANSAC inlier test, each of which is in [0,2] and zero exactly if the point lies on its bearing vector in front of its camera. With a minimiser that never increases the cost, the result is never worse than the start and stays exact if the start was. It should work from every rotation, but a start that is a half turn about any axis always gives NaN. Refining a consensus model ignores, and overwrites, the pose stored by the user.", "quantifier": "all adapters, index lists of any length, poses and minimisers", "why_tests_cant": "ranges over every minimiser and every pose; half turns are never drawn by random tests", "anchors": ["src/absolute_pose/methods.cpp: optimize_nonlinear, OptimizeNonlinearFunctor1", "src/sac_problems/absolute_pose/AbsolutePoseSacProblem.cpp: optimizeModelCoefficients", "src/sac_problems/absolute_pose/MultiNoncentralAbsolutePoseSacProblem.cpp: optimizeModelCoefficients"]}
{"id": "C73", "title": "Nonlinear refinement of a relative pose, and what it leaves in the adapter", "statement": "The residuals of relative_pose::optimize_nonlinear are the scores of the inlier test of the non-central problem and do not depend on the pose stored in the adapter although each evaluation overwrites it; each is zero exactly if the two viewing rays meet in front of both cameras. The result is always a rotation and a translation, never worse than the start for a minimiser that does not increase the cost. Afterwards the adapter should still hold the pose the user stored; instead it holds the motion between the two cameras of the last correspondence for the parameters that were tried last. So the same call made twice can start and end elsewhere, even if the first call returned the stored pose.", "quantifier": "all adapters, index lists, minimisers, histories of evaluations", "why_tests_cant": "depends on the sequence of evaluations an external minimiser makes and on repeated calls", "anchors": ["src/relative_pose/methods.cpp: optimize_nonlinear, OptimizeNonlinearFunctor1", "src/sac_problems/relative_pose/CentralRelativePoseSacProblem.cpp: optimizeModelCoefficients", "src/sac_problems/relative_pose/NoncentralRelativePoseSacProblem.cpp: optimizeModelCoefficients", "src/sac_problems/relative_pose/TranslationOnlySacProblem.cpp: optimizeModelCoefficients"]}
{"id": "C74", "title": "Refinement of point-cloud and rotation-only models", "statement": "point_cloud::optimize_nonlinear minimises the sum of squared distances after the alignment, always returns a rotation, and can never beat the closed form threept_arun. Refining a consensus model of the point-cloud problem replaces it by the closed form: never worse on the inliers, and exact on exact inliers. Refining a rotation-only model returns a rotation that is exact for three different exact bearing pairs. Both ignore the model they are given.", "quantifier": "all point clouds, index sets, minimisers and models", "why_tests_cant": "optimality over all rotations and translations", "anchors": ["src/point_cloud/methods.cpp: optimize_nonlinear, threept_arun", "src/sac_problems/point_cloud/PointCloudSacProblem.cpp: optimizeModelCoefficients", "src/sac_problems/relative_pose/RotationOnlySacProblem.cpp: optimizeModelCoefficients"]}
{"id": "C75", "title": "UPnP: every stationary point of the cost is an eigenvector", "statement": "The eigenvectors from which upnp reads its candidates contain every solution: for five or more correspondences, at each unit quaternion where the cost is stationary (in particular at the true pose of noise-free data), the listed monomials form an eigenvector of the action matrix for the square of the last component, so upnp returns the true pose of noise-free data in front of the cameras if that eigenvalue is simple and no component of the quaternion is zero. The same should hold for three and four correspondences, with the last component as eigenvalue; there the exact residual of the true solution is one dropped column of the eliminated matrix times a monomial, and for four points it is not zero: the true pose of noise-free data is not an eigenvector.", "quantifier": "all correspondences, all stationary points, all inputs on which the elimination succeeds", "why_tests_cant": "the elimination templates have 141 and 395 rows of generated code; correctness ranges over all coefficient matrices", "anchors": ["src/absolute_pose/modules/upnp4.cpp: setupAction_sym_gj", "src/absolute_pose/modules/upnp2.cpp: setupAction_gj", "src/absolute_pose/modules/main.cpp: upnp_main, upnp_main_sym", "src/absolute_pose/methods.cpp: upnp"]}
{"id": "C76", "title": "Seventeen-point solver for generalized cameras", "statement": "relative_pose::seventeenpt always returns a rotation and the translation that minimises the squared generalized epipolar errors for that rotation. For noise-free viewing rays that determine the essential matrix up to scale among all solutions of the linear constraints, and the motion among all rigid motions, it returns exactly the motion, scale included, whichever of the two rotations of the essential matrix comes first and also if the linear system for the rotation part is rank deficient. If all camera centres coincide with the body origin the returned translation is zero, whatever the motion.", "quantifier": "all sets of more than sixteen correspondences, all rigid motions with a translation, every correct singular value decomposition", "why_tests_cant": "exactness over all configurations; depends on the order and signs an external decomposition happens to choose", "anchors": ["src/relative_pose/methods.cpp: seventeenpt"]}
{"id": "C77", "title": "Six-point solver for generalized cameras", "statement": "relative_pose::sixpt always returns 64 candidates, each a rotation or not a number. For noise-free viewing rays (bearing vectors of length one) that meet under a rigid motion, all sixty polynomial equations vanish at the Cayley parameters of the true rotation, and if the two matrices that the solver inverts are regular, the monomials of these parameters are an eigenvector of the action matrix for the third parameter. If that eigenvalue is simple the true rotation is among the candidates, whatever scale and order the eigensolver chooses. If all correspondences come from one camera, all equations are identically zero and the first matrix is singular: the solver can return nothing for a central camera.", "quantifier": "all sets of six correspondences, all rigid motions whose rotation has Cayley parameters, every correct inverse, linear solver and eigensolver", "why_tests_cant": "the polynomials have thousands of generated terms and the template 6510 generated assignments; correctness ranges over all coefficients", "anchors": ["src/relative_pose/methods.cpp: sixpt", "src/relative_pose/modules/main.cpp: sixpt_main", "src/relative_pose/modules/sixpt/modules2.cpp: fillRow1, fillRow2, setupAction"]}
{"id": "C78", "title": "Five-point solver for the rotation (fivept_kneip)", "statement": "The ten equations that relative_pose::fivept_kneip sets up are, for every matrix, the determinants of the triples of epipolar plane normals. For noise-free correspondences, whenever the generated elimination meets no zero divisor, the first entry of the true rotation is an eigenvalue of the action matrix, with the monomials of the rotation as eigenvector; if that eigenvalue is simple and the eigensolver finds it, the true rotation is returned. In general at most twenty matrices are returned, and each of them is orthonormal up to 1/1000 in every entry of M M^T, has its second and third row of length one, determinant within 1/10 of one, all triples of normals coplanar up to 1/1000, and all points on the same side of the translation direction in both views for each of the ten translations.", "quantifier": "all bearing vectors, all index lists, all rotations and translations, every eigensolver", "why_tests_cant": "the elimination is generated code of 3071 statement groups on a 66x197 matrix; tests exercise a few random problems and cannot see a wrong coefficient in a rarely used cell", "anchors": ["src/relative_pose/methods.cpp: fivept_kneip", "src/relative_pose/modules/main.cpp: fivept_kneip_main", "src/relative_pose/modules/fivept_kneip/init.cpp", "src/relative_pose/modules/fivept_kneip/code.cpp: computeBasis", "src/relative_pose/modules/fivept_kneip/spolynomials.cpp", "src/relative_pose/modules/fivept_kneip/reductors.cpp"]}
{"id": "C79", "title": "Rotation-only hypotheses near the prior (EigensolverSacProblem)", "statement": "EigensolverSacProblem::computeModelCoefficients runs the unweighted eigensolver on the sample, started at a rotation whose Cayley parameters differ from those of the adapter's rotation prior by at most 0.1 in each coordinate, whatever rand() returns, and it returns a proper rotation. If the prior is a rotation by 180 degrees there is no finite start value. optimizeModelCoefficients calls rand() but does not depend on it: it is the weighted eigensolver on the inliers, started at the rotation of the model. On noise-free data, when the optimisation finds the true rotation, hypothesis and refinement are the true pose up to a positive scale, and every exact correspondence scores zero.", "quantifier": "all adapters, priors, samples, weights and sequences of random numbers", "why_tests_cant": "a test sees the random numbers of one run and one prior; that the start value stays in the stated box for all of them, and that refinement ignores them, is about every sequence", "anchors": ["src/sac_problems/relative_pose/EigensolverSacProblem.cpp: computeModelCoefficients, optimizeModelCoefficients, getSelectedDistancesToModel", "src/relative_pose/methods.cpp: eigensolver", "src/math/cayley.cpp: rot2cayley, cayley2rot"]}
{"id": "C80", "title": "gp3p: the generated elimination keeps the true poses", "statement": "Take any three rays (generalized camera) and three points for which the generated elimination of the generalized three-point solver does not divide by zero. Every pose that sees the three points along the rays, at whatever signed distances, stays a common zero of all polynomials the elimination builds, although the generated code leaves out terms of the polynomials it adds; early on it obtains three independent quadrics in the three rotation parameters alone. In the end the true poses give eigenvectors of the matrix it decomposes.", "quantifier": "every choice of three directions, three ray origins and three points without a zero divisor; every pose and every triple of signed distances", "why_tests_cant": "The generated code drops terms that cancel identically; a dropped term that is only zero for the inputs of a test would go unnoticed, and the identities range over 27 real inputs.", "anchors": ["src/absolute_pose/modules/gp3p/code.cpp:compute", "src/absolute_pose/modules/gp3p/spolynomials.cpp", "src/absolute_pose/modules/gp3p/reductors.cpp", "src/absolute_pose/methods.cpp:gp3p"]}
{"id": "C81", "title": "Python bindings: arrays in, arrays out", "statement": "Row i of an n x 3 array argument is the i-th vector, R[i, j] the entry in row i and column j; returned translations, rotations and 3 x 4 transformations [R | t] have the same layout, so a returned transformation split into T[:, :3] and T[:, 3] is read back unchanged as prior. Hence for noise-free arguments absolute_pose_p2p returns the camera position, relative_pose_twopt the translation direction, the rotation-only functions the rotation, and the triangulations an array whose row i is the i-th point, rows of the second array beyond the first being ignored; the p3p functions return one array per solution in order. Whatever the shapes of the arguments, the functions return or raise: no read leaves a buffer, and a second array that is too short raises. Two exceptions: an argument with an empty third dimension is read out of bounds, and triangulating no correspondence is undefined.", "quantifier": "all arrays of any shape and content, all poses and points", "why_tests_cant": "layouts and bounds range over all shapes; a transposed or shifted read is invisible on symmetric test data, and an out-of-bounds read usually goes unnoticed", "anchors": ["python/pyopengv.cpp: bearingVectorFromArray, pointFromArray, arrayFromPoints, arrayFromTranslation, arrayFromRotation, arrayFromTransformation, CentralAbsoluteAdapter, CentralRelativeAdapter, p2p, p3p_kneip, p3p_gao, twopt, twopt_rotationOnly, rotationOnly, triangulate, triangulate2", "python/types.hpp"]}
{"id": "C82", "title": "Python bindings: sample-consensus functions", "statement": "absolute_pose_ransac, relative_pose_ransac and relative_pose_ransac_rotation_only return the transformation of the hypothesis with the most inliers, the earliest among equals, computed from a sample of rows of the first array; the lmeds functions that of the hypothesis with the least median of squared scores. With the default number of iterations, and any up to INT_MAX/10, the search is free of overflow. Expected but false: a failed search is reported (with fewer rows than the sample size, and whenever no hypothesis was evaluated, the content of an uninitialised matrix is returned, by ransac and lmeds alike); an unknown algorithm name is rejected (it silently means KNEIP or NISTER); TWOPT is usable with a known orientation (there is no such argument and every hypothesis has the identity rotation).", "quantifier": "all arrays, algorithm names, thresholds, iteration counts, random sequences and solvers", "why_tests_cant": "ranges over all random sequences and all strings; returning uninitialised memory looks like a plausible result", "anchors": ["python/pyopengv.cpp: absolute_pose::ransac, absolute_pose::lmeds, relative_pose::ransac, relative_pose::lmeds, ransac_rotationOnly, lmeds_rotationOnly", "include/opengv/sac/implementation/Ransac.hpp: computeModel", "src/sac_problems/absolute_pose/AbsolutePoseSacProblem.cpp: computeModelCoefficients, getSampleSize"]}
{"id": "C83", "title": "EPnP error measures", "statement": "The quaternion the EPnP class computes from a rotation matrix is a unit quaternion whose rotation is the inverse of the matrix, in every branch, and no matrix makes the conversion fail. The relative rotation error of two rotations depends on the angle between them only (d = 2 sin(angle/4)), is symmetric and zero exactly on equal rotations. The relative translation error is the distance over the true length, zero exactly on equal translations, and no number exactly when the true translation is zero.", "quantifier": "all matrices, all pairs of rotations, all pairs of translations", "why_tests_cant": "the rotations form a continuum and the four branches meet on surfaces", "anchors": ["src/absolute_pose/modules/Epnp.cpp: Epnp::mat_to_quat, Epnp::relative_error"]}
{"id": "C84", "title": "Matlab entry point", "statement": "opengv(method, ...) accepts exactly the documented names. With arguments of the documented form it runs the library function of that name on the caller's data, prior and (1-based) indices, and returns its result in an array of the documented shape; inliers come back 1-based and, converted to double, select the same correspondences again. Any call not of that form produces no output. With a string, arrays of doubles and index values in the range of int the entry point has no undefined behaviour. Not so: index values outside 1..n are passed on, a first argument that is no string is interpreted from fresh memory, and returned inliers used as indices without conversion are misread.", "quantifier": "all method strings, array sizes, data, index lists, priors, numbers of outputs and library results", "why_tests_cant": "38 methods times three call forms times all sizes and data", "anchors": ["matlab/opengv.cpp: findCase, mexFunction, methods, methodsLengths, enum Method"]}
{"id": "C85", "title": "Python bindings: multi-point solvers", "statement": "For noise-free arrays relative_pose_eightpt returns the essential matrix of the motion up to scale when the correspondences determine it, and always a singular matrix; relative_pose_sevenpt and relative_pose_fivept_nister return lists containing it, every matrix from seven rows satisfying all epipolar constraints; absolute_pose_epnp returns the camera pose, and in any case a 3 x 4 array that is all NaN or starts with a rotation. Too few rows trip the assertion of the solver, a second array shorter than the first raises. Expected but false: absolute_pose_gpnp and relative_pose_sixpt solve their problem (the bindings only build central adapters, so gpnp returns the same pose for the same points whatever the bearing vectors, and the first matrix sixpt inverts is singular for all unit bearing vectors, its result not depending on the arguments), and epnp handles points in a plane (all NaN).", "quantifier": "all arrays, motions, point sets and correct decompositions", "why_tests_cant": "ranges over all arrays and motions; a function that ignores its argument still returns a plausible pose", "anchors": ["python/pyopengv.cpp: epnp, gpnp, fivept_nister, sevenpt, eightpt, sixpt, CentralAbsoluteAdapter, CentralRelativeAdapter, listFromEssentials, listFromRotations", "src/relative_pose/methods.cpp: fivept_nister, sevenpt, eightpt, sixpt", "src/absolute_pose/methods.cpp: epnp, gpnp"]}
{"id": "C86", "title": "Python bindings: refinements and the five-point rotation solver", "statement": "absolute_pose_optimize_nonlinear(v, p, t, R) and relative_pose_optimize_nonlinear(b1, b2, t, R) start at the pose passed, in that order of arguments, and minimise the reprojection errors of all rows of the first array; from six rows on the result is what the minimiser makes of these errors, with a descent method the total error never increases and a pose that explains every row is refined to one that does. With fewer than six rows the pose passed comes back unchanged and no row is looked at. The result is a 3 x 4 array with a rotation, or all NaN. A start whose rotation is a half turn gives all NaN, even if it is exact (refuted: a refinement never destroys a good start). R and t exchanged, or a second array with fewer rows (from six rows on), raise an exception. relative_pose_fivept_kneip uses exactly the first five rows; for noise-free rows its list contains the rotation between the views, and every matrix in it is a rotation that makes the epipolar planes meet, within the tolerances of the solver; there are at most twenty.", "quantifier": "all arrays of any shape and content, start poses, minimisers and correct eigensolvers", "why_tests_cant": "ranges over all arrays, start poses and behaviours of the minimiser; a refinement that does nothing, or starts elsewhere, still returns a plausible pose", "anchors": ["python/pyopengv.cpp: absolute_pose::optimize_nonlinear, relative_pose::optimize_nonlinear, relative_pose::fivept_kneip, CentralAbsoluteAdapter, CentralRelativeAdapter, getNindices", "src/absolute_pose/methods.cpp: optimize_nonlinear", "src/relative_pose/methods.cpp: optimize_nonlinear, fivept_kneip"]}
{"id": "C87", "title": "Python bindings: eigensolver", "statement": "relative_pose_eigensolver(b1, b2, R) starts the minimisation at R, on the sums over all rows of the first array and the corresponding rows of the second: for every rotation these give the matrix of the normals of the epipolar planes of the rows. The array returned is the rotation found. If the minimiser does not leave the zeros of the smallest eigenvalue, an R that explains all rows with some translation is refined to a rotation that does. Four rows or fewer violate the assertion; a second array with fewer rows raises an exception.", "quantifier": "all arrays, start rotations other than half turns, and minimisers", "why_tests_cant": "ranges over all arrays and start rotations; exchanged views give the inverse rotation, which is as plausible", "anchors": ["python/pyopengv.cpp: relative_pose::eigensolver, CentralRelativeAdapter", "src/relative_pose/methods.cpp: eigensolver", "src/relative_pose/modules/main.cpp: eigensolver_main"]}
{"id": "C88", "title": "Python bindings: UPnP", "statement": "absolute_pose_upnp(v, p) returns the poses of the complete UPnP solver for the rows of v and the corresponding rows of p: at least one array and at most one per candidate, each with a rotation or NaN in its first three columns. For noise-free rows, if the candidates contain the quaternion of the camera, the list contains the camera pose [R | t] - provided no component of that quaternion is zero; otherwise, as for a camera that is not rotated, the array with the right rotation has NaN for the translation (refuted). Bearing vectors all along one line give NaN. Two rows or fewer violate the assertion; a points array with fewer rows raises an exception.", "quantifier": "all arrays, camera poses, point sets and candidate lists", "why_tests_cant": "ranges over all arrays and poses; test poses are random, so the axis-aligned ones are never met", "anchors": ["python/pyopengv.cpp: absolute_pose::upnp, CentralAbsoluteAdapter, listFromTransformations", "src/absolute_pose/methods.cpp: upnp"]}
{"id": "C89", "title": "Python bindings: GP3P", "statement": "absolute_pose_gp3p(v, p) uses the first three rows of each array and nothing else: v[i] as a ray through the one camera centre, p[i] as the world point on it. Its list contains every pose that puts the three points on their rays, as a 3 x 4 array [R | t], if the eigendecomposition contains the corresponding solution vector with an accepted eigenvalue. It has one array per eigenvalue with imaginary part below 1e-4, at most eight; each array is all NaN or has a proper rotation in its first three columns. Every solution has a twin with another rotation that puts the points on the same rays at the opposite distances, and nothing removes it: a caller has to discard poses with the points behind the camera. Fewer than three rows in either array raise an exception.", "quantifier": "all arrays, all eigendecompositions, all three-point configurations; the twin for points that are not collinear", "why_tests_cant": "The statement is about every configuration and every result of the eigensolver.", "anchors": ["python/pyopengv.cpp:absolute_pose::gp3p", "src/absolute_pose/methods.cpp:gp3p", "src/absolute_pose/modules/main.cpp:gp3p_main"]}
