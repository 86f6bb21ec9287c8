rocq/.lia.cache
.nia.cache
.lia.cache
