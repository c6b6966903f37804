(** Model: the hash functions of the keys of the cache (src/cache.c). *)
From Verif Require Import Common CacheModel MapModel.

(** cache.c:222-231 hsk_cache_key_hash *)
Definition cache_key_hash (ck : ckey) : Z := if k_ref ck then tweak3 (k_name ck) 2 1 else tweak3 (k_name ck) 1 (k_type ck).
