(** The unit tests and documentation examples of the repository that the model can
    express, replayed on the model.  These are tests of the model, not proofs of
    properties.  Not here: tests of code that is not modelled, tests that need the hash
    function of the index, and the tokenizer tests at lines 16, 25, 27, 29, 110, 128, 175, 176, 228, 230, 234, 313, 544, 548, 552, 556, 560, 567, 571, 579, 584, 588, 592, 596, 600, 604, 612, 620, 624, 628, 634, 638, 647, 651, 655, 659, 667, 671, 679, 687, 691, 699, 707 of
    tokenizer.rs, which also hold but are slow to compute with derivatives. *)
From Coq Require Import String List NArith Bool.
From Verif Require Import Common IterModel TokModel P_Tok ProcModel FilesModel CrawlModel ZuulModel.
Import ListNotations.
Open Scope N_scope.

(** ** iterator/src/iterator.rs *)
(** iterator.rs:16-26, documentation *)
Example iterator_doc : all_lines true false [Data (lit "first" ++ [10] ++ lit "second\nextra")] =
  ([(lit "first", 1); (lit "second", 2); (lit "extra", 2)], SEnd).
Proof. vm_compute. reflexivity. Qed.
(** iterator.rs:321-342, test_iterator *)
Example test_iterator :
  all_lines true false [Data (lit "first" ++ [10] ++ lit "second" ++ [10] ++ lit "third" ++ [10] ++ lit "fourth\nsub4")] =
    ([(lit "first", 1); (lit "second", 2); (lit "third", 3); (lit "fourth", 4); (lit "sub4", 4)], SEnd) /\
  all_lines true false [Data (lit "first\n")] = ([(lit "first", 1)], SEnd).
Proof. vm_compute. auto. Qed.
(** iterator.rs:345-365, test_json_iterator *)
Example test_json_iterator :
  all_lines true true [Data (lit "[42, 43," ++ [10] ++ lit " {""key"": ""value"", o:[1,2]}]")] =
  ([(lit "42", 1); (lit " 43", 1); (lit " ", 2); (lit """key"": ""value""", 2); (lit " o:", 2); (lit "1", 2); (lit "2", 2)], SEnd).
Proof. vm_compute. reflexivity. Qed.

(** ** tokenizer/src/tokenizer.rs (all texts are ASCII) *)
Local Notation w := ascii_word.
(** tokenizer.rs:36 (should_panic) *)
Example tok_36 : process w (lit "{""key"": true, ""oth"": 1}") <> process w (lit "{""oth"": 1, ""key"": true}").
Proof. vm_compute. discriminate. Qed.
(** tokenizer.rs:86 *)
Example tok_86 : process w (lit "iptables -N RULES42 -L") = Some (lit "%GL_FILTER").
Proof. vm_compute. reflexivity. Qed.
(** tokenizer.rs:87 *)
Example tok_87 : process w (lit "e2b607f0bb193c9bfed94af532ba1>33 STORED") = Some (lit "%GL_FILTER").
Proof. vm_compute. reflexivity. Qed.
(** tokenizer.rs:91 *)
Example tok_91 : process w (lit "s/5bf8>28 sending key") = Some (lit "%GL_FILTER").
Proof. vm_compute. reflexivity. Qed.
(** tokenizer.rs:92 *)
Example tok_92 : process w (lit "^- srcf-ntp.example.edu 2 9 377 429 -358us[ -358us] +/- 63ms") = Some (lit "%GL_FILTER").
Proof. vm_compute. reflexivity. Qed.
(** tokenizer.rs:96 *)
Example tok_96 : process w (lit "++ echo mswAxrrS1YwyGtIut9Vd") = Some (lit "%GL_FILTER").
Proof. vm_compute. reflexivity. Qed.
(** tokenizer.rs:161 *)
Example tok_161 : process w (lit "A{$@42") = process w (lit "$A%TE").
Proof. vm_compute. reflexivity. Qed.
(** tokenizer.rs:174 *)
Example tok_174 : process w (lit "the_ip is 127.0.0.1") = process w (lit "the_ip is ::1").
Proof. vm_compute. reflexivity. Qed.
(** tokenizer.rs:224 *)
Example tok_224 : process w (lit "MqoplXLA2LPnJKTNMQW5JpGyMLJcLxRDDEejzh6b1im8KV/5TRKDsg7b5FwBJJoN") = process w (lit "fJkzOzsJdqxvhSvDFkUlAP7a/+kOBCYi1Yp1pz0v/mHLi0r1z5xtx3BemXVYHbom").
Proof. vm_compute. reflexivity. Qed.
(** tokenizer.rs:255 *)
Example tok_255 : process w (lit "md5:d41d8cd98f00b204e9800998ecf8427e") = process w (lit "md5:e7b26fc34f528b5b19c4450867b9d597").
Proof. vm_compute. reflexivity. Qed.
(** tokenizer.rs:287 *)
Example tok_287 : process w (lit "key=01:02:ff") = process w (lit "key=aa:bb:cc").
Proof. vm_compute. reflexivity. Qed.
(** tokenizer.rs:425 *)
Example tok_425 : process w (lit "Test Fail") = Some (lit "Test Fail Fail%A Fail%B Fail%C Fail%D").
Proof. vm_compute. reflexivity. Qed.
(** tokenizer.rs:538 *)
Example tok_538 : process w ((lit "testy" ++ [13] ++ [10])) = Some (lit "%GL_FILTER").
Proof. vm_compute. reflexivity. Qed.
(** tokenizer.rs:539 *)
Example tok_539 : process w ((lit "* mirror: 42" ++ [10])) = Some (lit "%GL_FILTER").
Proof. vm_compute. reflexivity. Qed.
(** tokenizer.rs:575 *)
Example tok_575 : process w (lit "^+ ntp1a.example.com 1 10 377 635 -1217us[-1069us] +/- 16ms") = Some (lit "%GL_FILTER").
Proof. vm_compute. reflexivity. Qed.
(** tokenizer.rs:642 *)
Example tok_642 : process w (lit "ZUUL_REF=Z60f0ad207fbb4c55a07d665ef44131a4") = process w (lit "ZUUL_REF=Zbffe5ccbe3ef4ab48c016783ea185dfa").
Proof. vm_compute. reflexivity. Qed.
(** tokenizer.rs:646 *)
Example tok_646 : process w (lit "tap44302f40-8") = process w (lit "tap423e2e40-8").
Proof. vm_compute. reflexivity. Qed.
(** tokenizer.rs:84-99, 323-378, 713-719 *)
Example test_helpers :
  map (global_filter w) [lit "|        =+ooo=+.o|"; lit "                    ""|           oo... |"""] = [true; true] /\
  remove_numbers (lit "test42-check") = lit "testN-check" /\
  forallb (is_date w) (map lit ["sunday"; "saturday"; "Monday"]%string) = true /\
  existsb (is_date w) (map lit ["sunday "; " saturday"; " jan "; "sund"]%string) = false /\
  is_error w (lit "FAIL") = true /\
  forallb (TokModel.is_uid w) (map lit ["aa:bb:cc:00:ff"; "42.24.21.12"; "abab-efef"; "2022-02-03"; "18:01:00.1"]%string) = true /\
  is_key_value (lit "key=value") = Some (lit "key", lit "value") /\
  is_key_value (lit "keyvalue") = None /\ is_key_value (lit "!KEY=value") = None /\
  map is_random_path [lit "/tmp/test"; lit "/var/tmp/key"; lit "/usr"] = [true; true; false] /\
  trim_pid (lit "systemd[42") = Some (lit "systemd") /\
  words (lit " a b ") = [[]; lit "a"; lit "b"; []].
Proof. vm_compute. repeat split. Qed.

(** ** model/src/process.rs:347-401, test_leftovers *)
Definition log_line (n : string) (i : N) : bline := (lit n ++ lit " log line", i, i).
Definition five := [log_line "001" 0; log_line "002" 1; log_line "003" 2; log_line "004" 3; log_line "005" 4].
Definition texts (l : list string) := Some (map (fun n => lit n ++ lit " log line") l).
Example test_leftovers :
  collect_before 0 0 five [] = texts [] /\ collect_before 1 0 five [] = texts ["001"%string] /\
  collect_before 1 1 five [] = texts [] /\ collect_before 2 2 five [] = texts [] /\
  collect_before 4 0 five [] = texts ["002"; "003"; "004"]%string /\
  reset_left_overs five 3 = texts ["004"; "005"]%string /\
  collect_before 1 0 [log_line "006" 6] (map (fun n => lit n ++ lit " log line") ["004"; "005"]%string) =
    texts ["004"; "005"; "006"]%string.
Proof. vm_compute. repeat split. Qed.

(** ** model/tests/model_test.rs:10-33, it_group_by_indexname *)
Definition hierarchy : list bytes := map lit [
  "job-output.txt.gz";
  "k8s-cluster-resources/CRDs/customresourcedefinition.apiextensions.k8s.io/catalogsources.operators.coreos.com.txt";
  "k8s-cluster-resources/CRDs/customresourcedefinition.apiextensions.k8s.io/certificaterequests.cert-manager.io.txt";
  "k8s-cluster-resources/CRDs/customresourcedefinition.apiextensions.k8s.io/certificates.cert-manager.io.txt";
  "k8s-cluster-resources/CRDs/customresourcedefinition.apiextensions.k8s.io/challenges.acme.cert-manager.io.txt";
  "k8s-cluster-resources/CRDs/customresourcedefinition.apiextensions.k8s.io/clusterissuers.cert-manager.io.txt";
  "k8s-cluster-resources/CRDs/customresourcedefinition.apiextensions.k8s.io/clusterserviceversions.operators.coreos.com.txt";
  "k8s-cluster-resources/CRDs/customresourcedefinition.apiextensions.k8s.io/installplans.operators.coreos.com.txt";
  "k8s-cluster-resources/CRDs/customresourcedefinition.apiextensions.k8s.io/issuers.cert-manager.io.txt";
  "k8s-cluster-resources/CRDs/customresourcedefinition.apiextensions.k8s.io/logicalvolumes.topolvm.io.txt";
  "k8s-cluster-resources/CRDs/customresourcedefinition.apiextensions.k8s.io/olmconfigs.operators.coreos.com.txt";
  "k8s-cluster-resources/CRDs/customresourcedefinition.apiextensions.k8s.io/operatorconditions.operators.coreos.com.txt";
  "k8s-cluster-resources/CRDs/customresourcedefinition.apiextensions.k8s.io/operatorgroups.operators.coreos.com.txt";
  "k8s-cluster-resources/CRDs/customresourcedefinition.apiextensions.k8s.io/operators.operators.coreos.com.txt";
  "k8s-cluster-resources/CRDs/customresourcedefinition.apiextensions.k8s.io/orders.acme.cert-manager.io.txt";
  "k8s-cluster-resources/CRDs/customresourcedefinition.apiextensions.k8s.io/rangeallocations.security.internal.openshift.io.txt";
  "k8s-cluster-resources/CRDs/customresourcedefinition.apiextensions.k8s.io/routes.route.openshift.io.txt";
  "k8s-cluster-resources/CRDs/customresourcedefinition.apiextensions.k8s.io/securitycontextconstraints.security.openshift.io.txt";
  "k8s-cluster-resources/CRDs/customresourcedefinition.apiextensions.k8s.io/softwarefactories.sf.softwarefactory-project.io.txt";
  "k8s-cluster-resources/CRDs/customresourcedefinition.apiextensions.k8s.io/subscriptions.operators.coreos.com.txt";
  "k8s-cluster-resources/persistentvolume/pvc-1687d3f0-82f4-46a7-801a-767026fdcb95.txt";
  "k8s-cluster-resources/persistentvolume/pvc-2b3a5259-7a8e-4011-a4d1-05bad2b0f12a.txt";
  "k8s-cluster-resources/persistentvolume/pvc-63c6ad48-cd18-432e-b83b-206226b6aeb1.txt";
  "k8s-cluster-resources/persistentvolume/pvc-8b2efa29-38d6-4d3e-af24-8f7a8c0e0a8c.txt";
  "k8s-cluster-resources/persistentvolume/pvc-988f8981-dcd1-404e-9bc4-9149bbd92926.txt";
  "k8s-cluster-resources/persistentvolume/pvc-a225eaa3-0477-4531-b88b-b195d64ff6e7.txt";
  "k8s-cluster-resources/persistentvolume/pvc-ab03678a-1462-481d-b412-54087c0dc8b5.txt";
  "k8s-cluster-resources/persistentvolume/pvc-b9219444-3599-4e82-be5c-b0584a4f9944.txt";
  "k8s-cluster-resources/persistentvolume/pvc-c230c7bf-360a-46e6-b27a-b983d7610340.txt";
  "k8s-cluster-resources/nodes.txt";
  "k8s-resources/bundle-catalog-ns/catalogsource.operators.coreos.com/sf-operator-catalog.txt";
  "k8s-resources/bundle-catalog-ns/configmap/6339eec3ca2d6a0e36787b10daa5c6513b6ec79933804bd9dcb4c3b59b6e7ee.txt";
  "k8s-resources/bundle-catalog-ns/configmap/cert-manager-webhook.txt";
  "k8s-resources/bundle-catalog-ns/configmap/kube-root-ca.crt.txt";
  "k8s-resources/bundle-catalog-ns/configmap/openshift-service-ca.crt.txt";
  "k8s-resources/bundle-catalog-ns/configmap/sf-operator-catalog-configmap-partition-1.txt";
  "k8s-resources/bundle-catalog-ns/configmap/sf-operator-manager-config.txt";
  "k8s-resources/bundle-catalog-ns/deployment.apps/cert-manager-cainjector.txt";
  "k8s-resources/bundle-catalog-ns/deployment.apps/cert-manager-webhook.txt";
  "k8s-resources/bundle-catalog-ns/deployment.apps/cert-manager.txt";
  "k8s-resources/bundle-catalog-ns/deployment.apps/sf-operator-controller-manager.txt";
  "k8s-resources/bundle-catalog-ns/job.batch/6339eec3ca2d6a0e36787b10daa5c6513b6ec79933804bd9dcb4c3b59b6e7ee.txt";
  "k8s-resources/bundle-catalog-ns/pod/6339eec3ca2d6a0e36787b10daa5c6513b6ec79933804bd9dcb4c3b59b8t6m9-extract-logs.txt";
  "k8s-resources/bundle-catalog-ns/pod/6339eec3ca2d6a0e36787b10daa5c6513b6ec79933804bd9dcb4c3b59b8t6m9.txt";
  "k8s-resources/bundle-catalog-ns/pod/cert-manager-566c69b6cb-mgztl-cert-manager-controller-logs.txt";
  "k8s-resources/bundle-catalog-ns/pod/cert-manager-566c69b6cb-mgztl.txt";
  "k8s-resources/bundle-catalog-ns/pod/cert-manager-cainjector-f9b6b49-bqm6b-cert-manager-cainjector-logs.txt";
  "k8s-resources/bundle-catalog-ns/pod/cert-manager-cainjector-f9b6b49-bqm6b.txt";
  "k8s-resources/bundle-catalog-ns/pod/cert-manager-webhook-6845dffd6f-4gpzw-cert-manager-webhook-logs.txt";
  "k8s-resources/bundle-catalog-ns/pod/cert-manager-webhook-6845dffd6f-4gpzw.txt";
  "k8s-resources/bundle-catalog-ns/pod/localhost-5000-sf-operator-bundle-latest-registry-grpc-logs.txt";
  "k8s-resources/bundle-catalog-ns/pod/localhost-5000-sf-operator-bundle-latest.txt";
  "k8s-resources/bundle-catalog-ns/pod/sf-operator-controller-manager-5bf6fdf84d-f9lnb-kube-rbac-proxy-logs.txt";
  "k8s-resources/bundle-catalog-ns/pod/sf-operator-controller-manager-5bf6fdf84d-f9lnb-manager-logs.txt";
  "k8s-resources/bundle-catalog-ns/pod/sf-operator-controller-manager-5bf6fdf84d-f9lnb.txt";
  "k8s-resources/bundle-catalog-ns/secret/cert-manager-webhook-service-cert.txt";
  "k8s-resources/bundle-catalog-ns/service/cert-manager-webhook-service.txt";
  "k8s-resources/bundle-catalog-ns/service/cert-manager-webhook.txt";
  "k8s-resources/bundle-catalog-ns/service/cert-manager.txt";
  "k8s-resources/bundle-catalog-ns/service/sf-operator-controller-manager-metrics-service.txt";
  "k8s-resources/bundle-catalog-ns/subscription.operators.coreos.com/cert-manager-stable-operatorhubio-catalog-olm.txt";
  "k8s-resources/bundle-catalog-ns/subscription.operators.coreos.com/sf-operator-v0-0-0-sub.txt";
  "k8s-resources/bundle-catalog-ns/events.txt";
  "k8s-resources/bundle-catalog-ns/resources-all.txt";
  "k8s-resources/sf/configmap/gerrit-pi-config-map.txt";
  "k8s-resources/sf/configmap/git-server-pi-config-map.txt";
  "k8s-resources/sf/configmap/kube-root-ca.crt.txt";
  "k8s-resources/sf/configmap/logserver-config-map.txt";
  "k8s-resources/sf/configmap/managesf-resources-config-map.txt";
  "k8s-resources/sf/configmap/openshift-service-ca.crt.txt";
  "k8s-resources/sf/configmap/pymod-sf-operator-config-map.txt";
  "k8s-resources/sf/configmap/sf-provided-cr-config-map.txt";
  "k8s-resources/sf/configmap/zookeeper-pi-config-map.txt";
  "k8s-resources/sf/configmap/zuul-scheduler-tooling-config-map.txt";
  "k8s-resources/sf/deployment.apps/logserver.txt";
  "k8s-resources/sf/deployment.apps/managesf-resources.txt";
  "k8s-resources/sf/deployment.apps/nodepool-launcher.txt";
  "k8s-resources/sf/deployment.apps/zuul-web.txt";
  "k8s-resources/sf/job.batch/config-base-secret.txt";
  "k8s-resources/sf/job.batch/gerrit-post-init.txt";
  "k8s-resources/sf/job.batch/setup-config-repo.txt";
  "k8s-resources/sf/persistentvolumeclaim/gerrit-gerrit-0.txt";
  "k8s-resources/sf/persistentvolumeclaim/git-server-git-server-0.txt";
  "k8s-resources/sf/persistentvolumeclaim/logserver.txt";
  "k8s-resources/sf/persistentvolumeclaim/mariadb-logs-mariadb-0.txt";
  "k8s-resources/sf/persistentvolumeclaim/mariadb-mariadb-0.txt";
  "k8s-resources/sf/persistentvolumeclaim/zookeeper-data-zookeeper-0.txt";
  "k8s-resources/sf/persistentvolumeclaim/zookeeper-zookeeper-0.txt";
  "k8s-resources/sf/persistentvolumeclaim/zuul-executor-zuul-executor-0.txt";
  "k8s-resources/sf/persistentvolumeclaim/zuul-scheduler-zuul-scheduler-0.txt";
  "k8s-resources/sf/pod/config-base-secret-jbdtd-sf-operator-logs.txt";
  "k8s-resources/sf/pod/config-base-secret-jbdtd.txt";
  "k8s-resources/sf/pod/gerrit-0-gerrit-logs.txt";
  "k8s-resources/sf/pod/gerrit-0.txt";
  "k8s-resources/sf/pod/gerrit-post-init-6xn2j-gerrit-post-init-container-logs.txt";
  "k8s-resources/sf/pod/gerrit-post-init-6xn2j.txt";
  "k8s-resources/sf/pod/git-server-0-git-server-logs.txt";
  "k8s-resources/sf/pod/git-server-0.txt";
  "k8s-resources/sf/pod/logserver-b4cd4d4fb-v9d25-logserver-logs.txt";
  "k8s-resources/sf/pod/logserver-b4cd4d4fb-v9d25-logserver-sshd-logs.txt";
  "k8s-resources/sf/pod/logserver-b4cd4d4fb-v9d25-purgelogs-logs.txt";
  "k8s-resources/sf/pod/logserver-b4cd4d4fb-v9d25.txt";
  "k8s-resources/sf/pod/managesf-resources-66f847649f-c98zn-managesf-resources-logs.txt";
  "k8s-resources/sf/pod/managesf-resources-66f847649f-c98zn.txt";
  "k8s-resources/sf/pod/mariadb-0-mariadb-logs.txt";
  "k8s-resources/sf/pod/mariadb-0.txt";
  "k8s-resources/sf/pod/nodepool-launcher-fcd58c584-tlpng-launcher-logs.txt";
  "k8s-resources/sf/pod/nodepool-launcher-fcd58c584-tlpng.txt";
  "k8s-resources/sf/pod/setup-config-repo-8d6st-sf-operator-logs.txt";
  "k8s-resources/sf/pod/setup-config-repo-8d6st.txt";
  "k8s-resources/sf/pod/zookeeper-0-zookeeper-logs.txt";
  "k8s-resources/sf/pod/zookeeper-0.txt";
  "k8s-resources/sf/pod/zuul-executor-0-zuul-executor-logs.txt";
  "k8s-resources/sf/pod/zuul-executor-0.txt";
  "k8s-resources/sf/pod/zuul-scheduler-0-scheduler-sidecar-logs.txt";
  "k8s-resources/sf/pod/zuul-scheduler-0-zuul-scheduler-logs.txt";
  "k8s-resources/sf/pod/zuul-scheduler-0.txt";
  "k8s-resources/sf/pod/zuul-web-7b77bfd7db-dv6n7-zuul-web-logs.txt";
  "k8s-resources/sf/pod/zuul-web-7b77bfd7db-dv6n7.txt";
  "k8s-resources/sf/secret/admin-ssh-key.txt";
  "k8s-resources/sf/secret/ca-cert.txt";
  "k8s-resources/sf/secret/config-update-secrets.txt";
  "k8s-resources/sf/secret/gerrit-admin-api-key.txt";
  "k8s-resources/sf/secret/gerrit-client-tls.txt";
  "k8s-resources/sf/secret/gerrit-keystore-password.txt";
  "k8s-resources/sf/secret/logserver-keys.txt";
  "k8s-resources/sf/secret/mariadb-root-password.txt";
  "k8s-resources/sf/secret/nodepool-yaml.txt";
  "k8s-resources/sf/secret/zk-hosts.txt";
  "k8s-resources/sf/secret/zookeeper-client-tls.txt";
  "k8s-resources/sf/secret/zookeeper-server-tls.txt";
  "k8s-resources/sf/secret/zuul-auth-secret.txt";
  "k8s-resources/sf/secret/zuul-config.txt";
  "k8s-resources/sf/secret/zuul-db-password.txt";
  "k8s-resources/sf/secret/zuul-db-uri.txt";
  "k8s-resources/sf/secret/zuul-gerrit-api-key.txt";
  "k8s-resources/sf/secret/zuul-keystore-password.txt";
  "k8s-resources/sf/secret/zuul-ssh-key.txt";
  "k8s-resources/sf/service/gerrit-httpd.txt";
  "k8s-resources/sf/service/gerrit-sshd.txt";
  "k8s-resources/sf/service/git-server.txt";
  "k8s-resources/sf/service/logserver-httpd.txt";
  "k8s-resources/sf/service/logserver-sshd.txt";
  "k8s-resources/sf/service/mariadb.txt";
  "k8s-resources/sf/service/zookeeper-headless.txt";
  "k8s-resources/sf/service/zookeeper.txt";
  "k8s-resources/sf/service/zuul-executor-headless.txt";
  "k8s-resources/sf/service/zuul-web.txt";
  "k8s-resources/sf/statefulset.apps/gerrit.txt";
  "k8s-resources/sf/statefulset.apps/git-server.txt";
  "k8s-resources/sf/statefulset.apps/mariadb.txt";
  "k8s-resources/sf/statefulset.apps/zookeeper.txt";
  "k8s-resources/sf/statefulset.apps/zuul-executor.txt";
  "k8s-resources/sf/statefulset.apps/zuul-scheduler.txt";
  "k8s-resources/sf/events.txt";
  "k8s-resources/sf/resources-all.txt";
  "zuul-info/zuul-info.controller.txt"]%string.
Definition expected_groups : list (bytes * list bytes) := map (fun x => (lit (fst x), map lit (snd x))) [
  ("bundle-catalog-ns/events.txt", ["k8s-resources/bundle-catalog-ns/events.txt"]);
  ("bundle-catalog-ns/resources-all.txt", ["k8s-resources/bundle-catalog-ns/resources-all.txt"]);
  ("catalogsource.operators.coreos.com/sf-operator-catalog.txt", ["k8s-resources/bundle-catalog-ns/catalogsource.operators.coreos.com/sf-operator-catalog.txt"]);
  ("configmap/cert-manager-webhook.txt", ["k8s-resources/bundle-catalog-ns/configmap/cert-manager-webhook.txt"]);
  ("configmap/eeccadaebdaacbecbddcbcbbeee.txt", ["k8s-resources/bundle-catalog-ns/configmap/6339eec3ca2d6a0e36787b10daa5c6513b6ec79933804bd9dcb4c3b59b6e7ee.txt"]);
  ("configmap/gerrit-pi-config-map.txt", ["k8s-resources/sf/configmap/gerrit-pi-config-map.txt"]);
  ("configmap/git-server-pi-config-map.txt", ["k8s-resources/sf/configmap/git-server-pi-config-map.txt"]);
  ("configmap/kube-root-ca.crt.txt", ["k8s-resources/bundle-catalog-ns/configmap/kube-root-ca.crt.txt"; "k8s-resources/sf/configmap/kube-root-ca.crt.txt"]);
  ("configmap/logserver-config-map.txt", ["k8s-resources/sf/configmap/logserver-config-map.txt"]);
  ("configmap/managesf-resources-config-map.txt", ["k8s-resources/sf/configmap/managesf-resources-config-map.txt"]);
  ("configmap/openshift-service-ca.crt.txt", ["k8s-resources/bundle-catalog-ns/configmap/openshift-service-ca.crt.txt"; "k8s-resources/sf/configmap/openshift-service-ca.crt.txt"]);
  ("configmap/pymod-sf-operator-config-map.txt", ["k8s-resources/sf/configmap/pymod-sf-operator-config-map.txt"]);
  ("configmap/sf-operator-catalog-configmap-partition-.txt", ["k8s-resources/bundle-catalog-ns/configmap/sf-operator-catalog-configmap-partition-1.txt"]);
  ("configmap/sf-operator-manager-config.txt", ["k8s-resources/bundle-catalog-ns/configmap/sf-operator-manager-config.txt"]);
  ("configmap/sf-provided-cr-config-map.txt", ["k8s-resources/sf/configmap/sf-provided-cr-config-map.txt"]);
  ("configmap/zookeeper-pi-config-map.txt", ["k8s-resources/sf/configmap/zookeeper-pi-config-map.txt"]);
  ("configmap/zuul-scheduler-tooling-config-map.txt", ["k8s-resources/sf/configmap/zuul-scheduler-tooling-config-map.txt"]);
  ("customresourcedefinition.apiextensions.ks.io/catalogsources.operators.coreos.com.txt", ["k8s-cluster-resources/CRDs/customresourcedefinition.apiextensions.k8s.io/catalogsources.operators.coreos.com.txt"]);
  ("customresourcedefinition.apiextensions.ks.io/certificaterequests.cert-manager.io.txt", ["k8s-cluster-resources/CRDs/customresourcedefinition.apiextensions.k8s.io/certificaterequests.cert-manager.io.txt"]);
  ("customresourcedefinition.apiextensions.ks.io/certificates.cert-manager.io.txt", ["k8s-cluster-resources/CRDs/customresourcedefinition.apiextensions.k8s.io/certificates.cert-manager.io.txt"]);
  ("customresourcedefinition.apiextensions.ks.io/challenges.acme.cert-manager.io.txt", ["k8s-cluster-resources/CRDs/customresourcedefinition.apiextensions.k8s.io/challenges.acme.cert-manager.io.txt"]);
  ("customresourcedefinition.apiextensions.ks.io/clusterissuers.cert-manager.io.txt", ["k8s-cluster-resources/CRDs/customresourcedefinition.apiextensions.k8s.io/clusterissuers.cert-manager.io.txt"]);
  ("customresourcedefinition.apiextensions.ks.io/clusterserviceversions.operators.coreos.com.txt", ["k8s-cluster-resources/CRDs/customresourcedefinition.apiextensions.k8s.io/clusterserviceversions.operators.coreos.com.txt"]);
  ("customresourcedefinition.apiextensions.ks.io/installplans.operators.coreos.com.txt", ["k8s-cluster-resources/CRDs/customresourcedefinition.apiextensions.k8s.io/installplans.operators.coreos.com.txt"]);
  ("customresourcedefinition.apiextensions.ks.io/issuers.cert-manager.io.txt", ["k8s-cluster-resources/CRDs/customresourcedefinition.apiextensions.k8s.io/issuers.cert-manager.io.txt"]);
  ("customresourcedefinition.apiextensions.ks.io/logicalvolumes.topolvm.io.txt", ["k8s-cluster-resources/CRDs/customresourcedefinition.apiextensions.k8s.io/logicalvolumes.topolvm.io.txt"]);
  ("customresourcedefinition.apiextensions.ks.io/olmconfigs.operators.coreos.com.txt", ["k8s-cluster-resources/CRDs/customresourcedefinition.apiextensions.k8s.io/olmconfigs.operators.coreos.com.txt"]);
  ("customresourcedefinition.apiextensions.ks.io/operatorconditions.operators.coreos.com.txt", ["k8s-cluster-resources/CRDs/customresourcedefinition.apiextensions.k8s.io/operatorconditions.operators.coreos.com.txt"]);
  ("customresourcedefinition.apiextensions.ks.io/operatorgroups.operators.coreos.com.txt", ["k8s-cluster-resources/CRDs/customresourcedefinition.apiextensions.k8s.io/operatorgroups.operators.coreos.com.txt"]);
  ("customresourcedefinition.apiextensions.ks.io/operators.operators.coreos.com.txt", ["k8s-cluster-resources/CRDs/customresourcedefinition.apiextensions.k8s.io/operators.operators.coreos.com.txt"]);
  ("customresourcedefinition.apiextensions.ks.io/orders.acme.cert-manager.io.txt", ["k8s-cluster-resources/CRDs/customresourcedefinition.apiextensions.k8s.io/orders.acme.cert-manager.io.txt"]);
  ("customresourcedefinition.apiextensions.ks.io/rangeallocations.security.internal.openshift.io.txt", ["k8s-cluster-resources/CRDs/customresourcedefinition.apiextensions.k8s.io/rangeallocations.security.internal.openshift.io.txt"]);
  ("customresourcedefinition.apiextensions.ks.io/routes.route.openshift.io.txt", ["k8s-cluster-resources/CRDs/customresourcedefinition.apiextensions.k8s.io/routes.route.openshift.io.txt"]);
  ("customresourcedefinition.apiextensions.ks.io/securitycontextconstraints.security.openshift.io.txt", ["k8s-cluster-resources/CRDs/customresourcedefinition.apiextensions.k8s.io/securitycontextconstraints.security.openshift.io.txt"]);
  ("customresourcedefinition.apiextensions.ks.io/softwarefactories.sf.softwarefactory-project.io.txt", ["k8s-cluster-resources/CRDs/customresourcedefinition.apiextensions.k8s.io/softwarefactories.sf.softwarefactory-project.io.txt"]);
  ("customresourcedefinition.apiextensions.ks.io/subscriptions.operators.coreos.com.txt", ["k8s-cluster-resources/CRDs/customresourcedefinition.apiextensions.k8s.io/subscriptions.operators.coreos.com.txt"]);
  ("deployment.apps/cert-manager-cainjector.txt", ["k8s-resources/bundle-catalog-ns/deployment.apps/cert-manager-cainjector.txt"]);
  ("deployment.apps/cert-manager-webhook.txt", ["k8s-resources/bundle-catalog-ns/deployment.apps/cert-manager-webhook.txt"]);
  ("deployment.apps/cert-manager.txt", ["k8s-resources/bundle-catalog-ns/deployment.apps/cert-manager.txt"]);
  ("deployment.apps/logserver.txt", ["k8s-resources/sf/deployment.apps/logserver.txt"]);
  ("deployment.apps/managesf-resources.txt", ["k8s-resources/sf/deployment.apps/managesf-resources.txt"]);
  ("deployment.apps/nodepool-launcher.txt", ["k8s-resources/sf/deployment.apps/nodepool-launcher.txt"]);
  ("deployment.apps/sf-operator-controller-manager.txt", ["k8s-resources/bundle-catalog-ns/deployment.apps/sf-operator-controller-manager.txt"]);
  ("deployment.apps/zuul-web.txt", ["k8s-resources/sf/deployment.apps/zuul-web.txt"]);
  ("job-output.txt", ["job-output.txt.gz"]);
  ("job.batch/config-base-secret.txt", ["k8s-resources/sf/job.batch/config-base-secret.txt"]);
  ("job.batch/eeccadaebdaacbecbddcbcbbeee.txt", ["k8s-resources/bundle-catalog-ns/job.batch/6339eec3ca2d6a0e36787b10daa5c6513b6ec79933804bd9dcb4c3b59b6e7ee.txt"]);
  ("job.batch/gerrit-post-init.txt", ["k8s-resources/sf/job.batch/gerrit-post-init.txt"]);
  ("job.batch/setup-config-repo.txt", ["k8s-resources/sf/job.batch/setup-config-repo.txt"]);
  ("ks-cluster-resources/nodes.txt", ["k8s-cluster-resources/nodes.txt"]);
  ("persistentvolumeclaim/gerrit-gerrit-.txt", ["k8s-resources/sf/persistentvolumeclaim/gerrit-gerrit-0.txt"]);
  ("persistentvolumeclaim/git-server-git-server-.txt", ["k8s-resources/sf/persistentvolumeclaim/git-server-git-server-0.txt"]);
  ("persistentvolumeclaim/logserver.txt", ["k8s-resources/sf/persistentvolumeclaim/logserver.txt"]);
  ("persistentvolumeclaim/mariadb-logs-mariadb-.txt", ["k8s-resources/sf/persistentvolumeclaim/mariadb-logs-mariadb-0.txt"]);
  ("persistentvolumeclaim/mariadb-mariadb-.txt", ["k8s-resources/sf/persistentvolumeclaim/mariadb-mariadb-0.txt"]);
  ("persistentvolumeclaim/zookeeper-data-zookeeper-.txt", ["k8s-resources/sf/persistentvolumeclaim/zookeeper-data-zookeeper-0.txt"]);
  ("persistentvolumeclaim/zookeeper-zookeeper-.txt", ["k8s-resources/sf/persistentvolumeclaim/zookeeper-zookeeper-0.txt"]);
  ("persistentvolumeclaim/zuul-executor-zuul-executor-.txt", ["k8s-resources/sf/persistentvolumeclaim/zuul-executor-zuul-executor-0.txt"]);
  ("persistentvolumeclaim/zuul-scheduler-zuul-scheduler-.txt", ["k8s-resources/sf/persistentvolumeclaim/zuul-scheduler-zuul-scheduler-0.txt"]);
  ("pod/6339eec3ca2d6a0e36787b10daa5c6513b6ec79933804bd9dcb4c3b59b8t6m9", ["k8s-resources/bundle-catalog-ns/pod/6339eec3ca2d6a0e36787b10daa5c6513b6ec79933804bd9dcb4c3b59b8t6m9-extract-logs.txt"]);
  ("pod/6339eec3ca2d6a0e36787b10daa5c6513b6ec79933804bd9dcb4c3b59b8t6m9.txt", ["k8s-resources/bundle-catalog-ns/pod/6339eec3ca2d6a0e36787b10daa5c6513b6ec79933804bd9dcb4c3b59b8t6m9.txt"]);
  ("pod/cert", ["k8s-resources/bundle-catalog-ns/pod/cert-manager-566c69b6cb-mgztl-cert-manager-controller-logs.txt"; "k8s-resources/bundle-catalog-ns/pod/cert-manager-566c69b6cb-mgztl.txt"; "k8s-resources/bundle-catalog-ns/pod/cert-manager-cainjector-f9b6b49-bqm6b-cert-manager-cainjector-logs.txt"; "k8s-resources/bundle-catalog-ns/pod/cert-manager-cainjector-f9b6b49-bqm6b.txt"; "k8s-resources/bundle-catalog-ns/pod/cert-manager-webhook-6845dffd6f-4gpzw-cert-manager-webhook-logs.txt"; "k8s-resources/bundle-catalog-ns/pod/cert-manager-webhook-6845dffd6f-4gpzw.txt"]);
  ("pod/config", ["k8s-resources/sf/pod/config-base-secret-jbdtd-sf-operator-logs.txt"; "k8s-resources/sf/pod/config-base-secret-jbdtd.txt"]);
  ("pod/gerrit", ["k8s-resources/sf/pod/gerrit-0-gerrit-logs.txt"; "k8s-resources/sf/pod/gerrit-0.txt"; "k8s-resources/sf/pod/gerrit-post-init-6xn2j-gerrit-post-init-container-logs.txt"; "k8s-resources/sf/pod/gerrit-post-init-6xn2j.txt"]);
  ("pod/git", ["k8s-resources/sf/pod/git-server-0-git-server-logs.txt"; "k8s-resources/sf/pod/git-server-0.txt"]);
  ("pod/localhost", ["k8s-resources/bundle-catalog-ns/pod/localhost-5000-sf-operator-bundle-latest-registry-grpc-logs.txt"; "k8s-resources/bundle-catalog-ns/pod/localhost-5000-sf-operator-bundle-latest.txt"]);
  ("pod/logserver", ["k8s-resources/sf/pod/logserver-b4cd4d4fb-v9d25-logserver-logs.txt"; "k8s-resources/sf/pod/logserver-b4cd4d4fb-v9d25-logserver-sshd-logs.txt"; "k8s-resources/sf/pod/logserver-b4cd4d4fb-v9d25-purgelogs-logs.txt"; "k8s-resources/sf/pod/logserver-b4cd4d4fb-v9d25.txt"]);
  ("pod/managesf", ["k8s-resources/sf/pod/managesf-resources-66f847649f-c98zn-managesf-resources-logs.txt"; "k8s-resources/sf/pod/managesf-resources-66f847649f-c98zn.txt"]);
  ("pod/mariadb", ["k8s-resources/sf/pod/mariadb-0-mariadb-logs.txt"; "k8s-resources/sf/pod/mariadb-0.txt"]);
  ("pod/nodepool", ["k8s-resources/sf/pod/nodepool-launcher-fcd58c584-tlpng-launcher-logs.txt"; "k8s-resources/sf/pod/nodepool-launcher-fcd58c584-tlpng.txt"]);
  ("pod/setup", ["k8s-resources/sf/pod/setup-config-repo-8d6st-sf-operator-logs.txt"; "k8s-resources/sf/pod/setup-config-repo-8d6st.txt"]);
  ("pod/sf", ["k8s-resources/bundle-catalog-ns/pod/sf-operator-controller-manager-5bf6fdf84d-f9lnb-kube-rbac-proxy-logs.txt"; "k8s-resources/bundle-catalog-ns/pod/sf-operator-controller-manager-5bf6fdf84d-f9lnb-manager-logs.txt"; "k8s-resources/bundle-catalog-ns/pod/sf-operator-controller-manager-5bf6fdf84d-f9lnb.txt"]);
  ("pod/zookeeper", ["k8s-resources/sf/pod/zookeeper-0-zookeeper-logs.txt"; "k8s-resources/sf/pod/zookeeper-0.txt"]);
  ("pod/zuul", ["k8s-resources/sf/pod/zuul-executor-0-zuul-executor-logs.txt"; "k8s-resources/sf/pod/zuul-executor-0.txt"; "k8s-resources/sf/pod/zuul-scheduler-0-scheduler-sidecar-logs.txt"; "k8s-resources/sf/pod/zuul-scheduler-0-zuul-scheduler-logs.txt"; "k8s-resources/sf/pod/zuul-scheduler-0.txt"; "k8s-resources/sf/pod/zuul-web-7b77bfd7db-dv6n7-zuul-web-logs.txt"; "k8s-resources/sf/pod/zuul-web-7b77bfd7db-dv6n7.txt"]);
  ("pvc", ["k8s-cluster-resources/persistentvolume/pvc-1687d3f0-82f4-46a7-801a-767026fdcb95.txt"; "k8s-cluster-resources/persistentvolume/pvc-2b3a5259-7a8e-4011-a4d1-05bad2b0f12a.txt"; "k8s-cluster-resources/persistentvolume/pvc-63c6ad48-cd18-432e-b83b-206226b6aeb1.txt"; "k8s-cluster-resources/persistentvolume/pvc-8b2efa29-38d6-4d3e-af24-8f7a8c0e0a8c.txt"; "k8s-cluster-resources/persistentvolume/pvc-988f8981-dcd1-404e-9bc4-9149bbd92926.txt"; "k8s-cluster-resources/persistentvolume/pvc-a225eaa3-0477-4531-b88b-b195d64ff6e7.txt"; "k8s-cluster-resources/persistentvolume/pvc-ab03678a-1462-481d-b412-54087c0dc8b5.txt"; "k8s-cluster-resources/persistentvolume/pvc-b9219444-3599-4e82-be5c-b0584a4f9944.txt"; "k8s-cluster-resources/persistentvolume/pvc-c230c7bf-360a-46e6-b27a-b983d7610340.txt"]);
  ("secret/admin-ssh-key.txt", ["k8s-resources/sf/secret/admin-ssh-key.txt"]);
  ("secret/ca-cert.txt", ["k8s-resources/sf/secret/ca-cert.txt"]);
  ("secret/cert-manager-webhook-service-cert.txt", ["k8s-resources/bundle-catalog-ns/secret/cert-manager-webhook-service-cert.txt"]);
  ("secret/config-update-secrets.txt", ["k8s-resources/sf/secret/config-update-secrets.txt"]);
  ("secret/gerrit-admin-api-key.txt", ["k8s-resources/sf/secret/gerrit-admin-api-key.txt"]);
  ("secret/gerrit-client-tls.txt", ["k8s-resources/sf/secret/gerrit-client-tls.txt"]);
  ("secret/gerrit-keystore-password.txt", ["k8s-resources/sf/secret/gerrit-keystore-password.txt"]);
  ("secret/logserver-keys.txt", ["k8s-resources/sf/secret/logserver-keys.txt"]);
  ("secret/mariadb-root-password.txt", ["k8s-resources/sf/secret/mariadb-root-password.txt"]);
  ("secret/nodepool-yaml.txt", ["k8s-resources/sf/secret/nodepool-yaml.txt"]);
  ("secret/zk-hosts.txt", ["k8s-resources/sf/secret/zk-hosts.txt"]);
  ("secret/zookeeper-client-tls.txt", ["k8s-resources/sf/secret/zookeeper-client-tls.txt"]);
  ("secret/zookeeper-server-tls.txt", ["k8s-resources/sf/secret/zookeeper-server-tls.txt"]);
  ("secret/zuul-auth-secret.txt", ["k8s-resources/sf/secret/zuul-auth-secret.txt"]);
  ("secret/zuul-config.txt", ["k8s-resources/sf/secret/zuul-config.txt"]);
  ("secret/zuul-db-password.txt", ["k8s-resources/sf/secret/zuul-db-password.txt"]);
  ("secret/zuul-db-uri.txt", ["k8s-resources/sf/secret/zuul-db-uri.txt"]);
  ("secret/zuul-gerrit-api-key.txt", ["k8s-resources/sf/secret/zuul-gerrit-api-key.txt"]);
  ("secret/zuul-keystore-password.txt", ["k8s-resources/sf/secret/zuul-keystore-password.txt"]);
  ("secret/zuul-ssh-key.txt", ["k8s-resources/sf/secret/zuul-ssh-key.txt"]);
  ("service/cert-manager-webhook-service.txt", ["k8s-resources/bundle-catalog-ns/service/cert-manager-webhook-service.txt"]);
  ("service/cert-manager-webhook.txt", ["k8s-resources/bundle-catalog-ns/service/cert-manager-webhook.txt"]);
  ("service/cert-manager.txt", ["k8s-resources/bundle-catalog-ns/service/cert-manager.txt"]);
  ("service/gerrit-httpd.txt", ["k8s-resources/sf/service/gerrit-httpd.txt"]);
  ("service/gerrit-sshd.txt", ["k8s-resources/sf/service/gerrit-sshd.txt"]);
  ("service/git-server.txt", ["k8s-resources/sf/service/git-server.txt"]);
  ("service/logserver-httpd.txt", ["k8s-resources/sf/service/logserver-httpd.txt"]);
  ("service/logserver-sshd.txt", ["k8s-resources/sf/service/logserver-sshd.txt"]);
  ("service/mariadb.txt", ["k8s-resources/sf/service/mariadb.txt"]);
  ("service/sf-operator-controller-manager-metrics-service.txt", ["k8s-resources/bundle-catalog-ns/service/sf-operator-controller-manager-metrics-service.txt"]);
  ("service/zookeeper-headless.txt", ["k8s-resources/sf/service/zookeeper-headless.txt"]);
  ("service/zookeeper.txt", ["k8s-resources/sf/service/zookeeper.txt"]);
  ("service/zuul-executor-headless.txt", ["k8s-resources/sf/service/zuul-executor-headless.txt"]);
  ("service/zuul-web.txt", ["k8s-resources/sf/service/zuul-web.txt"]);
  ("sf/events.txt", ["k8s-resources/sf/events.txt"]);
  ("sf/resources-all.txt", ["k8s-resources/sf/resources-all.txt"]);
  ("statefulset.apps/gerrit.txt", ["k8s-resources/sf/statefulset.apps/gerrit.txt"]);
  ("statefulset.apps/git-server.txt", ["k8s-resources/sf/statefulset.apps/git-server.txt"]);
  ("statefulset.apps/mariadb.txt", ["k8s-resources/sf/statefulset.apps/mariadb.txt"]);
  ("statefulset.apps/zookeeper.txt", ["k8s-resources/sf/statefulset.apps/zookeeper.txt"]);
  ("statefulset.apps/zuul-executor.txt", ["k8s-resources/sf/statefulset.apps/zuul-executor.txt"]);
  ("statefulset.apps/zuul-scheduler.txt", ["k8s-resources/sf/statefulset.apps/zuul-scheduler.txt"]);
  ("subscription.operators.coreos.com/cert-manager-stable-operatorhubio-catalog-olm.txt", ["k8s-resources/bundle-catalog-ns/subscription.operators.coreos.com/cert-manager-stable-operatorhubio-catalog-olm.txt"]);
  ("subscription.operators.coreos.com/sf-operator-v---sub.txt", ["k8s-resources/bundle-catalog-ns/subscription.operators.coreos.com/sf-operator-v0-0-0-sub.txt"]);
  ("zuul-info/zuul-info.controller.txt", ["zuul-info/zuul-info.controller.txt"])]%string.
Definition source_path (s : source) : bytes := match s with Local _ p => p | Remote _ p => p end.
Fixpoint eqb_lists (a b : list bytes) : bool :=
  match a, b with [], [] => true | x :: a', y :: b' => eqb_list x y && eqb_lists a' b' | _, _ => false end.
(** The groups are those expected (a hash map has no order). *)
Definition same_groups (g : res (list (text * list source))) : bool :=
  match g with
  | Val l => Nat.eqb (length l) (length expected_groups) &&
    forallb (fun e => existsb (fun x => eqb_list (fst e) (fst x) && eqb_lists (snd e) (map source_path (snd x))) l) expected_groups
  | _ => false
  end.
Example it_group_by_indexname :
  same_groups (group_sources (map (fun p => file_iter (Local 0 p)) hierarchy)) = true.
Proof. vm_compute. reflexivity. Qed.

(** ** httpdir/src/httpdir.rs:275-325, test_httpdir: the links of its two pages *)
Definition root_page : text :=
  lit "" ++ [10] ++
  lit "<!DOCTYPE HTML PUBLIC ""-//W3C//DTD HTML 3.2 Final//EN"">" ++ [10] ++
  lit "<html>" ++ [10] ++
  lit " <head>" ++ [10] ++
  lit "  <title>Index of /logs/98/24398/5/check/dhall-diff/23b9eed</title>" ++ [10] ++
  lit " </head>" ++ [10] ++
  lit " <body>" ++ [10] ++
  lit "<h1>Index of /logs/98/24398/5/check/dhall-diff/23b9eed</h1>" ++ [10] ++
  lit "  <table>" ++ [10] ++
  lit "   <tr><th valign=""top""><img src=""/icons/blank.gif"" alt=""[ICO]""></th><th><a href=""?C=N;O=D"">Name</a></th><th><a href=""?C=M;O=A"">Last modified</a></th><th><a href=""?C=S;O=A"">Size</a></th></tr>" ++ [10] ++
  lit "   <tr><th colspan=""4""><hr></th></tr>" ++ [10] ++
  lit "<tr><td valign=""top""><img src=""/icons/back.gif"" alt=""[PARENTDIR]""></td><td><a href=""/logs/98/24398/5/check/dhall-diff/"">Parent Directory</a></td><td>&nbsp;</td><td align=""right"">  - </td></tr>" ++ [10] ++
  lit "<tr><td valign=""top""><img src=""/icons/compressed.gif"" alt=""[   ]""></td><td><a href=""job-output.json.gz"">job-output.json.gz</a></td><td align=""right"">2022-03-23 17:33  </td><td align=""right"">7.0K</td></tr>" ++ [10] ++
  lit "<tr><td valign=""top""><img src=""/icons/compressed.gif"" alt=""[   ]""></td><td><a href=""job-output.txt.gz"">job-output.txt.gz</a></td><td align=""right"">2022-03-23 17:33  </td><td align=""right"">4.7K</td></tr>" ++ [10] ++
  lit "<tr><td valign=""top""><img src=""/icons/folder.gif"" alt=""[DIR]""></td><td><a href=""zuul-info/"">zuul-info/</a></td><td align=""right"">2022-03-23 17:31  </td><td align=""right"">  - </td></tr>" ++ [10] ++
  lit "<tr><td valign=""top""><img src=""/icons/unknown.gif"" alt=""[   ]""></td><td><a href=""zuul-manifest.json"">zuul-manifest.json</a></td><td align=""right"">2022-03-23 17:33  </td><td align=""right"">478 </td></tr>" ++ [10] ++
  lit "   <tr><th colspan=""4""><hr></th></tr>" ++ [10] ++
  lit "</table>" ++ [10] ++
  lit "</body></html>" ++ [10] ++
  lit "" ++ [10].
Definition info_page : text :=
  lit "" ++ [10] ++
  lit "<tr><td valign=""top""><img src=""/icons/back.gif"" alt=""[PARENTDIR]""></td><td><a href=""/logs/98/24398/5/check/dhall-diff/23b9eed/"">Parent Directory</a></td><td>&nbsp;</td><td align=""right"">  - </td></tr>" ++ [10] ++
  lit "<tr><td valign=""top""><img src=""/icons/text.gif"" alt=""[TXT]""></td><td><a href=""inventory.yaml"">inventory.yaml</a></td><td align=""right"">2022-03-23 17:31  </td><td align=""right"">817 </td></tr>" ++ [10] ++
  lit "" ++ [10].
Example test_httpdir_links :
  find_links (S (length root_page)) root_page = map lit ["/logs/98/24398/5/check/dhall-diff/"; "job-output.json.gz"; "job-output.txt.gz"; "zuul-info/"; "zuul-manifest.json"]%string /\
  find_links (S (length info_page)) info_page = map lit ["/logs/98/24398/5/check/dhall-diff/23b9eed/"; "inventory.yaml"]%string.
Proof. vm_compute. split; reflexivity. Qed.

(** ** model/src/zuul.rs:225-244, test_zuul_url *)
Example test_zuul_url :
  get_zuul_api_url Some {| origin := lit "https://zuul.opendev.org"; upath := lit "/t/zuul/build/a498f74ab32b49ffa9c9e7463fbf8885"; suffix := [] |} =
    Some (Val (lit "https://zuul.opendev.org/api/tenant/zuul/", lit "a498f74ab32b49ffa9c9e7463fbf8885")) /\
  get_zuul_api_url Some {| origin := lit "https://review.rdoproject.org"; upath := lit "/zuul/build/2498d287ec4b442a95184b7a4bec9b2d"; suffix := [] |} =
    Some (Val (lit "https://review.rdoproject.org/zuul/api/", lit "2498d287ec4b442a95184b7a4bec9b2d")).
Proof. vm_compute. split; reflexivity. Qed.
